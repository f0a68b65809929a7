(** The fields of GNSS sentences: the model against the specification. *)
From Coq Require Import List NArith ZArith Bool String Lia Reals Lra Floats.SpecFloat.
From Flocq Require Import Core.
From Verif Require Import Base Str F64 Chrono Types Util AisMod Vdm Gnss Parser
  SpecText SpecResult SpecTime SpecAis SpecReal SpecFields StrFacts FrontFacts CallFacts ResultFacts BitFacts VdmFacts
  LayoutFacts FloatFacts DecimalFacts.
Import ListNotations.
Open Scope N_scope.

(** What a computation does: its values, whether it fails, whether it panics. *)
Record decides {E A} (m : outcome E A) (P : A -> Prop) (F K : Prop) : Prop := mk_decides {
  decides_ok : forall a, m = Ok a <-> P a;
  decides_err : (exists e, m = Err e) <-> F;
  decides_panic : m = Panic <-> K }.

Lemma decides_value {E A} (m : outcome E A) P a :
  m = Ok a -> (forall b, P b <-> b = a) -> decides m P False False.
Proof.
  intros -> H. constructor.
  - intros b. rewrite H. split; [intros X; injection X as <-; reflexivity|intros ->; reflexivity].
  - split; [intros [e X]; discriminate|tauto].
  - split; [discriminate|tauto].
Qed.

Lemma decides_error {E A} (m : outcome E A) (P : A -> Prop) (F : Prop) e :
  m = Err e -> (forall a, ~ P a) -> F -> decides m P F False.
Proof.
  intros -> H HF. constructor.
  - intros a. split; [discriminate|intros X; now apply H in X].
  - split; eauto.
  - split; [discriminate|tauto].
Qed.

Lemma decides_iff {E A} (m : outcome E A) (P Q : A -> Prop) (F G K L : Prop) :
  decides m P F K -> (forall a, P a <-> Q a) -> (F <-> G) -> (K <-> L) -> decides m Q G L.
Proof.
  intros [H1 H2 H3] HP HF HK. constructor.
  - intros a. now rewrite H1.
  - now rewrite H2.
  - now rewrite H3.
Qed.

(** First a field that cannot panic, then the rest. *)
Lemma decides_bind {E A B} (m : outcome E A) (k : A -> outcome E B) P Q (F G K : Prop) :
  decides m P F False -> (forall a, P a -> decides (k a) (Q a) G K) ->
  decides (let! a := m in k a) (fun b => exists a, P a /\ Q a b) (F \/ G) (~ F /\ K).
Proof.
  intros [H1 H2 H3] Hk. destruct m as [a|e|]; cbn [bind].
  - assert (Pa : P a) by now apply H1. destruct (Hk a Pa) as [K1 K2 K3].
    assert (NF : ~ F) by (intros f; apply H2 in f as [e X]; discriminate).
    constructor.
    + intros b. rewrite K1. split; [eauto|]. intros (a' & Pa' & Qb). apply H1 in Pa'. injection Pa' as <-. exact Qb.
    + rewrite K2. tauto.
    + rewrite K3. tauto.
  - assert (HF : F) by (apply H2; eauto). constructor.
    + intros b. split; [discriminate|]. intros (a & Pa & _). apply H1 in Pa. discriminate.
    + split; eauto.
    + split; [discriminate|tauto].
  - exfalso. now apply H3.
Qed.

(** The same without panics. *)
Lemma decides_bind_safe {E A B} (m : outcome E A) (k : A -> outcome E B) P Q (F G : Prop) :
  decides m P F False -> (forall a, P a -> decides (k a) (Q a) G False) ->
  decides (let! a := m in k a) (fun b => exists a, P a /\ Q a b) (F \/ G) False.
Proof.
  intros H Hk. eapply decides_iff; [exact (decides_bind m k P Q F G False H Hk)|..]; try (intros; tauto).
Qed.

(** First a time, which may panic, then fields that cannot. *)
Lemma decides_bind_first {E A B} (m : outcome E A) (k : A -> outcome E B) P Q (G K : Prop) :
  decides m P False K -> (forall a, P a -> decides (k a) (Q a) G False) ->
  decides (let! a := m in k a) (fun b => exists a, P a /\ Q a b) (~ K /\ G) K.
Proof.
  intros [H1 H2 H3] Hk. destruct m as [a|e|]; cbn [bind].
  - assert (Pa : P a) by now apply H1. destruct (Hk a Pa) as [K1 K2 K3].
    assert (NK : ~ K) by (intros f; apply H3 in f; discriminate).
    constructor.
    + intros b. rewrite K1. split; [eauto|]. intros (a' & Pa' & Qb). apply H1 in Pa'. injection Pa' as <-. exact Qb.
    + rewrite K2. tauto.
    + rewrite K3. tauto.
  - exfalso. apply H2. eauto.
  - assert (HK : K) by now apply H3. constructor.
    + intros b. split; [discriminate|]. intros (a & Pa & _). apply H1 in Pa. discriminate.
    + split; [intros [e X]; discriminate|tauto].
    + tauto.
Qed.

Lemma decides_map_err {E F A} (f : E -> F) (m : outcome E A) P G K :
  decides m P G K -> decides (map_err f m) P G K.
Proof.
  intros [H1 H2 H3]. destruct m as [a|e|]; cbn [map_err]; constructor;
    try (intros b; rewrite <- H1); try rewrite <- H2; try rewrite <- H3.
  all: split; try discriminate; try (intros X; injection X as <-; reflexivity); try (intros [e' X]; discriminate X); eauto.
Qed.

(** A field whose text is handed to a parsing function. *)
Lemma field_value_unique {A} (means : str -> A -> Prop) f a b :
  (forall v w, means f v -> means f w -> v = w) -> field_value means f a -> field_value means f b -> a = b.
Proof. intros U [E|v N H] [E'|w N' H']; try congruence. f_equal. now apply U. Qed.

Lemma number_decides {A} (parse : str -> option A) (means : str -> A -> Prop) split i :
  (forall s v, parse s = Some v <-> means s v) ->
  decides (number parse split i) (field_value means (field split i)) (malformed means (field split i)) False.
Proof.
  intros H. unfold number. apply decides_map_err. unfold pick_number_field. cbv zeta.
  rewrite str_eqb_nil_r. destruct (field split i) as [|c f] eqn:E; cbn [negb].
  - eapply decides_iff; [apply (decides_value _ (fun b => b = None) None); [reflexivity|tauto]|..]; [|split; [tauto|intros [X _]; now destruct X]|tauto].
    intros o. split; [intros ->; now constructor|]. intros [X|v N _]; [reflexivity|now destruct N].
  - destruct (parse (c :: f)) as [v|] eqn:P.
    + eapply decides_iff; [apply (decides_value _ (fun b => b = Some v) (Some v)); [reflexivity|tauto]|..]; [| |tauto].
      * intros o. apply H in P. split; [intros ->; now constructor|]. intros [X|w N M]; [discriminate|].
        apply H in M. apply H in P. congruence.
      * split; [tauto|]. intros [_ N]. apply (N v). now apply H.
    + eapply decides_error; [reflexivity|..].
      * intros o [X|w N M]; [discriminate|]. apply H in M. congruence.
      * split; [discriminate|]. intros w M. apply H in M. congruence.
Qed.

Lemma parse_u8_means s v : parse_u8 s = Some v <-> number_text 255 s v.
Proof. apply parse_uint_spec. Qed.
Lemma parse_u16_means s v : parse_u16 s = Some v <-> number_text 65535 s v.
Proof. apply parse_uint_spec. Qed.

Lemma number_lenient_means {A} (parse : str -> option A) (means : str -> A -> Prop) split i o :
  (forall s v, parse s = Some v <-> means s v) ->
  number_lenient parse split i = o <-> lenient_value means (field split i) o.
Proof.
  intros H. unfold number_lenient, pick_number_field. cbv zeta. rewrite str_eqb_nil_r.
  destruct (field split i) as [|c f] eqn:E; cbn [negb].
  - split; [intros <-; constructor; now left|]. intros [_|v N _]; [reflexivity|now destruct N].
  - destruct (parse (c :: f)) as [v|] eqn:P.
    + apply H in P. split; [intros <-; now constructor|]. intros [[X|X]|w _ M]; [discriminate|now apply X in P|].
      apply H in M. apply H in P. congruence.
    + split; [intros <-; constructor; right; intros w M; apply H in M; congruence|].
      intros [_|w _ M]; [reflexivity|]. apply H in M. congruence.
Qed.

(** ** Words *)

Fixpoint lookup {A} (table : list (str * A)) (f : str) : option A :=
  match table with
  | [] => None
  | (w, v) :: t => if str_eqb f w then Some v else lookup t f
  end.

Lemma lookup_word {A} (table : list (str * A)) f v :
  NoDup (map fst table) -> lookup table f = Some v <-> word table f v.
Proof.
  unfold word. induction table as [|[w u] t IH]; intros N; [split; [discriminate|intros []]|].
  cbn [map fst] in N. inversion N as [|? ? N1 N2]; subst. cbn [lookup In]. destruct (str_eqb_spec f w) as [-> |D].
  - split; [intros X; injection X as <-; now left|]. intros [X|X]; [injection X as <-; reflexivity|].
    destruct N1. apply in_map_iff. now exists (w, v).
  - rewrite IH by exact N2. split; [now right|]. intros [X|X]; [injection X as -> _; now destruct D|exact X].
Qed.

Lemma word_decides {A} (table : list (str * A)) f (m : outcome ParseError (option A)) e :
  NoDup (map fst table) -> ~ In [] (map fst table) ->
  m = match lookup table f with Some v => Ok (Some v) | None => if str_eqb f [] then Ok None else Err e end ->
  decides m (field_value (word table) f) (malformed (word table) f) False.
Proof.
  intros N N0 ->. pose proof (fun v => lookup_word table f v N) as L. destruct (lookup table f) as [v|].
  - assert (W : word table f v) by now apply L. assert (D : f <> []).
    { intros ->. apply N0. apply in_map_iff. exists ([], v). auto. }
    eapply decides_iff; [apply (decides_value _ (fun b => b = Some v) (Some v)); [reflexivity|tauto]|..]; [| |tauto].
    + intros o. split; [intros ->; now constructor|]. intros [X|w _ M]; [now destruct D|]. apply L in M. congruence.
    + split; [tauto|]. intros [_ X]. now apply X in W.
  - assert (W : forall v, ~ word table f v) by (intros v M; apply L in M; discriminate).
    destruct (str_eqb_spec f []) as [-> |D].
    + eapply decides_iff; [apply (decides_value _ (fun b => b = None) None); [reflexivity|tauto]|..]; [|split; [tauto|intros [X _]; now destruct X]|tauto].
      intros o. split; [intros ->; now constructor|]. intros [X|w X _]; [reflexivity|now destruct X].
    + eapply decides_error; [reflexivity|..]; [|split; auto]. intros o [X|w _ M]; [now destruct D|now apply W in M].
Qed.

Lemma NoDup_by {A} (eqb : A -> A -> bool) (l : list A) :
  (forall a b, a = b -> eqb a b = true) ->
  (fix nd l := match l with [] => true | x :: t => negb (existsb (eqb x) t) && nd t end) l = true -> NoDup l.
Proof.
  intros H. induction l as [|x t IH]; [constructor|]. intros E. apply andb_true_iff in E as [E1 E2].
  constructor; [|now apply IH]. intros I. apply negb_true_iff in E1.
  assert (existsb (eqb x) t = true) by (apply existsb_exists; exists x; auto). congruence.
Qed.

Ltac table := first [apply (NoDup_by str_eqb); [intros ? ? ->; apply str_eqb_eq; reflexivity|reflexivity]
  | cbn [map fst In]; intros X; repeat destruct X as [X|X]; try discriminate X; contradiction].

Lemma rmc_status_decides f : decides (rmc_status f) (field_value (word statuses) f) (malformed (word statuses) f) False.
Proof.
  eapply word_decides; [table|table|]. unfold rmc_status, statuses. cbn [lookup].
  destruct (str_eqb f (lit "A")); [reflexivity|]. destruct (str_eqb f (lit "V")); reflexivity.
Qed.
Lemma gsa_mode1_decides f :
  decides (gsa_mode1 f) (field_value (word selection_modes) f) (malformed (word selection_modes) f) False.
Proof.
  eapply word_decides; [table|table|]. unfold gsa_mode1, selection_modes. cbn [lookup].
  destruct (str_eqb f (lit "M")); [reflexivity|]. destruct (str_eqb f (lit "A")); reflexivity.
Qed.
Lemma gsa_mode2_decides f : decides (gsa_mode2 f) (field_value (word fix_modes) f) (malformed (word fix_modes) f) False.
Proof.
  eapply word_decides; [table|table|]. unfold gsa_mode2, fix_modes. cbn [lookup].
  destruct (str_eqb f (lit "1")); [reflexivity|]. destruct (str_eqb f (lit "2")); [reflexivity|].
  destruct (str_eqb f (lit "3")); reflexivity.
Qed.

Lemma word_lenient {A} (table : list (str * A)) f o :
  NoDup (map fst table) -> ~ In [] (map fst table) -> lookup table f = o <-> lenient_value (word table) f o.
Proof.
  intros N N0. pose proof (fun v => lookup_word table f v N) as L. split.
  - intros <-. destruct (lookup table f) as [v|].
    + assert (W : word table f v) by now apply L. constructor; [|exact W]. intros ->. apply N0. apply in_map_iff. exists ([], v). auto.
    + constructor. right. intros v M. apply L in M. discriminate.
  - intros [[-> |H]|v D M].
    + destruct (lookup table []) as [v|]; [|reflexivity]. destruct N0. apply in_map_iff. exists ([], v). split; [reflexivity|now apply L].
    + destruct (lookup table f) as [v|]; [|reflexivity]. now destruct (H v); apply L.
    + now apply L.
Qed.

Lemma faa_mode_means f o : ok_value (FaaMode_new f) = o <-> lenient_value (word faa_modes) f o.
Proof.
  rewrite <- word_lenient by table. unfold FaaMode_new. cbn [lookup faa_modes].
  destruct (str_eqb f (lit "A")); [reflexivity|]. destruct (str_eqb f (lit "D")); [reflexivity|].
  destruct (str_eqb f (lit "E")); [reflexivity|]. destruct (str_eqb f (lit "N")); reflexivity.
Qed.
Lemma gll_valid_means f o : gll_valid f = o <-> lenient_value (word statuses) f o.
Proof. rewrite <- word_lenient by table. reflexivity. Qed.

(** ** Positions *)

Lemma take_digits_spec n s a b : take_digits n s = Some (a, b) <-> s = a ++ b /\ List.length a = n /\ Forall digit a.
Proof.
  revert s a. induction n as [|n IH]; intros s a; cbn [take_digits].
  - split.
    + intros H. injection H as <- <-. repeat split. constructor.
    + intros (-> & Hl & _). destruct a; [reflexivity|discriminate].
  - destruct s as [|c s].
    + split; [discriminate|]. intros (H & Hl & _). destruct a; discriminate.
    + destruct (is_digit c) eqn:D.
      * apply is_digit_spec in D. destruct (take_digits n s) as [[a' b']|] eqn:T.
        -- split.
           ++ intros H. injection H as <- <-. apply IH in T as (-> & <- & F). repeat split. now constructor.
           ++ intros (H & Hl & F). destruct a as [|c' a]; [discriminate|]. injection H as -> ->. injection Hl as Hl.
              inversion F; subst. assert (T' : take_digits (List.length a) (a ++ b) = Some (a, b)) by (apply IH; auto).
              rewrite T' in T. injection T as <- <-. reflexivity.
        -- split; [discriminate|]. intros (H & Hl & F). destruct a as [|c' a]; [discriminate|]. injection H as -> ->. injection Hl as Hl.
           inversion F; subst. assert (T' : take_digits (List.length a) (a ++ b) = Some (a, b)) by (apply IH; auto). congruence.
      * split; [discriminate|]. intros (H & Hl & F). destruct a as [|c' a]; [discriminate|]. injection H as -> ->.
        inversion F as [|? ? X]; subst. apply is_digit_spec in X. congruence.
Qed.

Lemma app_length_inj {A} (a b c d : list A) : a ++ b = c ++ d -> List.length a = List.length c -> a = c /\ b = d.
Proof.
  revert c. induction a as [|x a IH]; intros [|y c] H L; try discriminate; [auto|].
  injection H as -> H. injection L as L. destruct (IH _ H L) as [-> ->]. auto.
Qed.

Lemma match_degrees_spec n s dd g2 : match_degrees n s = Some (dd, g2) <->
  exists mm frac rest, s = dd ++ mm ++ lit "." ++ frac ++ rest /\ g2 = mm ++ lit "." ++ frac /\
    Forall digit dd /\ Forall digit mm /\ Forall digit frac /\ List.length dd = n /\ List.length mm = 2%nat /\
    frac <> [] /\ match rest with [] => True | c :: _ => ~ digit c end.
Proof.
  unfold match_degrees. split.
  - destruct (take_digits n s) as [[d r]|] eqn:T1; [|discriminate]. apply take_digits_spec in T1 as (-> & L1 & F1).
    destruct (take_digits 2 r) as [[mm r2]|] eqn:T2; [|discriminate]. apply take_digits_spec in T2 as (-> & L2 & F2).
    destruct r2 as [|c r3]; [discriminate|]. destruct (N.eqb_spec c 46) as [-> |]; [|discriminate].
    destruct (span_digits r3) as [frac rest] eqn:S. apply span_digits_spec in S as (-> & F3 & R).
    destruct frac as [|x frac]; [discriminate|]. intros H. injection H as <- <-.
    exists mm, (x :: frac), rest. repeat split; auto; discriminate.
  - intros (mm & frac & rest & -> & -> & F1 & F2 & F3 & L1 & L2 & N & R).
    assert (T1 : take_digits n (dd ++ mm ++ lit "." ++ frac ++ rest) = Some (dd, mm ++ lit "." ++ frac ++ rest)) by (apply take_digits_spec; auto).
    assert (T2 : take_digits 2 (mm ++ lit "." ++ frac ++ rest) = Some (mm, lit "." ++ frac ++ rest)) by (apply take_digits_spec; auto).
    rewrite T1, T2. change (lit "." ++ frac ++ rest) with (46 :: frac ++ rest). cbn iota. rewrite N.eqb_refl.
    rewrite span_digits_app by assumption. destruct frac; [now destruct N|reflexivity].
Qed.

Lemma numeral_value_snoc ds d : numeral_value (ds ++ [d]) = 10 * numeral_value ds + (d - 48).
Proof. unfold numeral_value. now rewrite fold_left_app. Qed.

Lemma numeral_value_lt ds : Forall digit ds -> numeral_value ds < 10 ^ N.of_nat (List.length ds).
Proof.
  intros F. induction ds as [|d ds IH] using rev_ind; [reflexivity|].
  apply Forall_app in F as [F1 F2]. inversion F2 as [|? ? Hd _]; subst. specialize (IH F1). rewrite numeral_value_snoc, app_length.
  cbn [List.length]. rewrite Nat.add_1_r, Nat2N.inj_succ, N.pow_succ_r'. unfold digit in Hd. lia.
Qed.

Open Scope R_scope.

Lemma degrees_parsed dd : dd <> [] -> Forall digit dd -> parse_f64 dd = Some (f64_of_dec false (numeral_value dd) 0).
Proof.
  intros N F. apply parse_f64_spec. left. exists false, (numeral_value dd), 0%Z. split; [|reflexivity].
  apply decimal_intro with (sign := []) (ip := dd) (dot := []) (fp := []) (ex := []) (x := 0%Z); auto.
  - now rewrite !app_nil_r.
  - now left.
  - now rewrite app_nil_r.
  - constructor.
  - now rewrite app_nil_r.
Qed.

Lemma minutes_parsed mm frac : Forall digit mm -> Forall digit frac -> frac <> [] ->
  parse_f64 (mm ++ lit "." ++ frac) = Some (f64_of_dec false (numeral_value (mm ++ frac)) (- Z.of_nat (List.length frac))).
Proof.
  intros F1 F2 N. apply parse_f64_spec. left. eexists false, _, _. split; [|reflexivity].
  apply decimal_intro with (sign := []) (ip := mm) (dot := lit ".") (fp := frac) (ex := []) (x := 0%Z); auto.
  - now rewrite app_nil_r.
  - now left.
  - intros E. apply app_eq_nil in E as [_ E]. auto.
  - constructor.
Qed.

Lemma overflow_large : 2 ^ 20 < double_overflow.
Proof.
  unfold double_overflow. rewrite !powerRZ_bpow. assert (bpow radix2 1024 = bpow radix2 54 * bpow radix2 970) as ->
      by (rewrite <- bpow_plus; reflexivity).
  assert (A : 1 <= bpow radix2 970) by (change 1 with (bpow radix2 0); apply bpow_le; lia).
  assert (B : bpow radix2 54 = 18014398509481984) by reflexivity. rewrite B.
  assert (0 <= (bpow radix2 970 - 1)) by lra. nra.
Qed.

Lemma decimal_size_0 n : decimal_size n 0 = IZR (Z.of_N n).
Proof. unfold decimal_size. cbn [powerRZ]. ring. Qed.

Lemma minutes_bound mm frac : Forall digit mm -> Forall digit frac -> List.length mm = 2%nat ->
  0 <= decimal_size (numeral_value (mm ++ frac)) (- Z.of_nat (List.length frac)) < 100.
Proof.
  intros F1 F2 L. split; [apply decimal_size_nonneg|]. unfold decimal_size.
  assert (H : (numeral_value (mm ++ frac) < 10 ^ N.of_nat (2 + List.length frac))%N).
  { rewrite <- L, <- app_length. apply numeral_value_lt, Forall_app. auto. }
  rewrite powerRZ_neg'. rewrite <- pow_powerRZ.
  assert (P : 0 < 10 ^ List.length frac) by (apply pow_lt; lra).
  apply (Rmult_lt_reg_r (10 ^ List.length frac)); [exact P|]. rewrite Rmult_assoc, Rinv_l, Rmult_1_r by lra.
  assert (E : 100 * 10 ^ List.length frac = IZR (Z.of_N (10 ^ N.of_nat (2 + List.length frac)))).
  { rewrite N2Z.inj_pow, nat_N_Z. change (Z.of_N 10) with 10%Z. rewrite <- pow_IZR, pow_add. change (10 ^ 2) with (10 * (10 * 1)). lra. }
  rewrite E. apply IZR_lt. lia.
Qed.

Lemma rnd_between k v : (-1074 <= k < 1024)%Z -> 0 <= v <= bpow radix2 k -> 0 <= rnd v <= bpow radix2 k /\ Rabs (rnd v) < bpow radix2 1024.
Proof.
  intros Hk [H1 H2]. split; [split|].
  - now apply rnd_nonneg.
  - rewrite <- (rnd_bpow k) by lia. now apply rnd_le.
  - apply (rnd_in_range k); [lia|]. now rewrite Rabs_pos_eq.
Qed.

(** The three roundings of an angle. *)
Lemma angle_bounds d m : (d < 1000)%N -> 0 <= m < 100 ->
  (0 <= rnd m <= 128 /\ Rabs (rnd m) < bpow radix2 1024) /\
  (0 <= rnd (rnd m / 60) <= 4 /\ Rabs (rnd (rnd m / 60)) < bpow radix2 1024) /\
  (0 <= rnd (IZR (Z.of_N d) + rnd (rnd m / 60)) <= 1024 /\
   Rabs (rnd (IZR (Z.of_N d) + rnd (rnd m / 60))) < bpow radix2 1024).
Proof.
  intros Hd Hm. assert (D : 0 <= IZR (Z.of_N d) <= 1000) by (split; apply IZR_le; lia).
  assert (A := rnd_between 7 m). change (bpow radix2 7) with 128 in A. destruct A as [A1 A2]; [lia|lra|].
  assert (B := rnd_between 2 (rnd m / 60)). change (bpow radix2 2) with 4 in B. destruct B as [B1 B2]; [lia|lra|].
  assert (C := rnd_between 10 (IZR (Z.of_N d) + rnd (rnd m / 60))). change (bpow radix2 10) with 1024 in C. destruct C as [C1 C2]; [lia|lra|].
  auto.
Qed.

Lemma angle_steps d minutes m q y : (d < 1000)%N -> 0 <= minutes < 100 ->
  nearest minutes m -> nearest (real_of m / 60) q -> nearest (IZR (Z.of_N d) + real_of q) y ->
  real_of y = rnd (IZR (Z.of_N d) + rnd (rnd minutes / 60)).
Proof.
  intros Hd Hm N1 N2 N3. destruct (angle_bounds d minutes Hd Hm) as ((_ & A) & (_ & B) & (_ & C)).
  apply nearest_is_rnd in N1; [|exact A]. rewrite N1 in N2. apply nearest_is_rnd in N2; [|exact B].
  rewrite N2 in N3. now apply nearest_is_rnd in N3.
Qed.

Lemma nearest_unique v x y : nearest v x -> nearest v y -> Rabs (rnd v) < bpow radix2 1024 ->
  negative x = negative y -> x = y.
Proof.
  intros Nx Ny B E. apply real_of_inj; try apply Nx; try apply Ny; [exact E|].
  rewrite (nearest_is_rnd v x), (nearest_is_rnd v y); auto.
Qed.

Lemma f64_div_nearest x y : finite x -> finite y -> real_of y <> 0 -> Rabs (rnd (real_of x / real_of y)) < bpow radix2 1024 ->
  nearest (real_of x / real_of y) (f64_div x y) /\ negative (f64_div x y) = xorb (negative x) (negative y).
Proof.
  intros Fx Fy Hy B. destruct (f64_div_rounds x y Fx Fy Hy) as (P & F & _). destruct (F B) as (E & Fi & S).
  split; [now apply nearest_rnd|exact S].
Qed.

Lemma angle_value d n e : (d < 1000)%N -> 0 <= decimal_size n e < 100 ->
  let m := f64_of_dec false n e in let q := f64_div m (f64_of_Z 60) in let y := f64_add (f64_of_dec false d 0) q in
  nearest (decimal_size n e) m /\ nearest (real_of m / 60) q /\ nearest (IZR (Z.of_N d) + real_of q) y /\ negative y = false.
Proof.
  intros Hd Hm m q y. destruct (angle_bounds d _ Hd Hm) as ((_ & A) & (_ & B) & (_ & C)).
  pose proof overflow_large as L. assert (L' : 1048576 < double_overflow) by lra.
  destruct (f64_of_dec_nearest false n e) as [N1 S1]; [lra|]. cbn [signed] in N1. fold m in N1, S1.
  destruct (f64_of_dec_nearest false d 0) as [N0 S0].
  { rewrite decimal_size_0. apply Rlt_trans with 1000; [apply IZR_lt; lia|lra]. }
  cbn [signed] in N0. rewrite decimal_size_0 in N0.
  assert (E0 : real_of (f64_of_dec false d 0) = IZR (Z.of_N d)).
  { assert (D : (Z.abs (Z.of_N d) <= 2 ^ 53)%Z) by lia. apply integer_double, double_value_format in D as [D1 D2].
    rewrite (nearest_is_rnd _ _ N0); rewrite (rnd_exact _ D1); [reflexivity|exact D2]. }
  pose proof (nearest_is_rnd _ _ N1 A) as E1.
  destruct (f64_of_Z_exact 60) as (E60 & F60 & P60 & S60); [lia|].
  destruct (f64_div_nearest m (f64_of_Z 60)) as [N2 S2]; [apply N1|exact F60|rewrite E60; lra|rewrite E60, E1; exact B|].
  rewrite E60 in N2. fold q in N2, S2. rewrite S1 in S2. change (negative q = false) in S2.
  assert (E2 : real_of q = rnd (rnd (decimal_size n e) / 60)) by (rewrite (nearest_is_rnd _ _ N2); rewrite E1; [reflexivity|exact B]).
  assert (C' : Rabs (rnd (real_of (f64_of_dec false d 0) + real_of q)) < bpow radix2 1024) by (rewrite E0, E2; exact C).
  destruct (f64_add_rounds (f64_of_dec false d 0) q) as (E3 & F3 & P3); [apply N0|apply N2|apply N0|apply N2|exact C'|].
  repeat split; try apply N1; try apply N2; auto.
  - fold y in E3, F3, P3. rewrite E0 in E3. now apply nearest_rnd.
  - fold y in E3, F3, P3. rewrite E0 in E3. now apply nearest_rnd.
  - apply f64_add_nonneg; auto; try apply N0; try apply N2.
Qed.

Lemma degrees_minutes_unique n f d m d' m' : degrees_minutes n f d m -> degrees_minutes n f d' m' -> d = d' /\ m = m'.
Proof.
  intros [dd mm frac rest -> F1 F2 F3 L1 L2 N R -> ->] [dd' mm' frac' rest' E F1' F2' F3' L1' L2' N' R' -> ->].
  apply app_length_inj in E as [<- E]; [|congruence]. apply app_length_inj in E as [<- E]; [|congruence].
  apply app_inv_head in E. pose proof (span_digits_app frac rest F3 R) as S. rewrite E, span_digits_app in S by assumption.
  injection S as <- <-. auto.
Qed.

Lemma degrees_minutes_bound n f d m : (n <= 3)%nat -> degrees_minutes n f d m -> (d < 1000)%N /\ 0 <= m < 100.
Proof.
  intros Hn [dd mm frac rest -> F1 F2 F3 L1 L2 N R -> ->]. split.
  - pose proof (numeral_value_lt dd F1) as H. rewrite L1 in H. eapply N.lt_le_trans; [exact H|].
    change 1000%N with (10 ^ 3)%N. apply N.pow_le_mono_r; lia.
  - now apply minutes_bound.
Qed.

Lemma angle_unique n minus h f x y : (n <= 3)%nat -> angle n minus h f x -> angle n minus h f y -> x = y.
Proof.
  intros Hn (d & mi & m & q & z & D & N1 & N2 & N3 & S & Hm & Hp) (d' & mi' & m' & q' & z' & D' & N1' & N2' & N3' & S' & Hm' & Hp').
  destruct (degrees_minutes_unique _ _ _ _ _ _ D D') as [<- <-]. destruct (degrees_minutes_bound _ _ _ _ Hn D) as [B1 B2].
  assert (z = z') as <-.
  { apply real_of_inj; try apply N3; try apply N3'; [congruence|].
    rewrite (angle_steps d mi m q z), (angle_steps d mi m' q' z'); auto. }
  destruct (str_eqb_spec h minus) as [E|E].
  - now rewrite (Hm E), (Hm' E).
  - now rewrite (Hp E), (Hp' E).
Qed.

Lemma parse_angle_decides n minus what f h : (1 <= n <= 3)%nat ->
  decides (parse_angle n minus what f h) (field_value (angle n minus h) f) (malformed (angle n minus h) f) False.
Proof.
  intros Hn. unfold parse_angle. rewrite str_eqb_nil_r. destruct f as [|c f]; cbn [negb].
  - eapply decides_iff; [apply (decides_value _ (fun b => b = None) None); [reflexivity|tauto]|..]; [|split; [tauto|intros [X _]; now destruct X]|tauto].
    intros o. split; [intros ->; now constructor|]. intros [X|v N _]; [reflexivity|now destruct N].
  - set (s := c :: f). assert (Ns : s <> []) by discriminate. clearbody s.
    destruct (match_degrees n s) as [[dd g2]|] eqn:M.
    + apply match_degrees_spec in M as (mm & frac & rest & E & -> & F1 & F2 & F3 & L1 & L2 & N & R).
      assert (Nd : dd <> []) by (intros ->; cbn in L1; lia).
      rewrite (degrees_parsed dd Nd F1), (minutes_parsed mm frac F2 F3 N). cbn [unwrap_or]. cbv zeta.
      set (md := numeral_value (mm ++ frac)). set (me := (- Z.of_nat (List.length frac))%Z).
      assert (D : degrees_minutes n s (numeral_value dd) (decimal_size md me)) by (eapply degrees_minutes_intro; eauto).
      destruct (degrees_minutes_bound n s _ _ (proj2 Hn) D) as [B1 B2].
      destruct (angle_value (numeral_value dd) md me B1 B2) as (N1 & N2 & N3 & S).
      set (y := f64_add (f64_of_dec false (numeral_value dd) 0) (f64_div (f64_of_dec false md me) (f64_of_Z 60))) in *.
      set (x := if str_eqb h minus then f64_neg y else y).
      assert (A : angle n minus h s x).
      { exists (numeral_value dd), (decimal_size md me), (f64_of_dec false md me), (f64_div (f64_of_dec false md me) (f64_of_Z 60)), y.
        repeat split; auto; try apply N1; try apply N2; try apply N3; unfold x; destruct (str_eqb_spec h minus); tauto. }
      eapply decides_iff; [apply (decides_value _ (fun b => b = Some x) (Some x)); [reflexivity|tauto]|..]; [| |tauto].
      * intros o. split; [intros ->; now constructor|]. intros [X|w _ W]; [now destruct Ns|]. f_equal.
        now apply (angle_unique n minus h s).
      * split; [tauto|]. intros [_ X]. now apply X in A.
    + assert (W : forall v, ~ angle n minus h s v).
      { intros v (d & mi & m & q & z & D & _). destruct D as [dd mm frac rest E F1 F2 F3 L1 L2 N R _ _].
        assert (X : match_degrees n s = Some (dd, mm ++ lit "." ++ frac)) by (apply match_degrees_spec; eauto 12). congruence. }
      eapply decides_error; [reflexivity|..]; [|split; auto]. intros o [X|w _ Hw]; [now destruct Ns|now apply W in Hw].
Qed.

Lemma latitude_decides f h :
  decides (map_err InvalidSentence (parse_latitude_ddmm_mmm f h)) (field_value (latitude_text h) f) (malformed (latitude_text h) f) False.
Proof. apply decides_map_err, parse_angle_decides. lia. Qed.
Lemma longitude_decides f h :
  decides (map_err InvalidSentence (parse_longitude_dddmm_mmm f h)) (field_value (longitude_text h) f) (malformed (longitude_text h) f) False.
Proof. apply decides_map_err, parse_angle_decides. lia. Qed.

Open Scope N_scope.

(** ** Times *)

Lemma utf8_at_least s : (List.length s <= utf8_bytes s)%nat.
Proof.
  rewrite <- byte_len_spec. induction s as [|c s IH]; [auto|]. cbn [List.length byte_len]. pose proof (utf8_len_pos c). lia.
Qed.

Lemma denotes_short a v : (List.length a <= 2)%nat -> denotes a v -> v <= 99.
Proof.
  intros L (ds & E & [N F] & <-). assert (Ld : (List.length ds <= 2)%nat) by (destruct E as [-> | ->]; cbn in L; lia).
  pose proof (numeral_value_lt ds F) as H. assert (10 ^ N.of_nat (List.length ds) <= 10 ^ 2) by (apply N.pow_le_mono_r; lia). lia.
Qed.

Lemma parse_short a v : (List.length a <= 2)%nat -> parse_uint u32_max a = Some v <-> denotes a v.
Proof.
  intros L. rewrite parse_uint_spec. split; [tauto|]. intros H. split; [exact H|]. apply (denotes_short a v L) in H. unfold u32_max. lia.
Qed.

Lemma parse_short_none a : (List.length a <= 2)%nat -> parse_uint u32_max a = None <-> forall v, ~ denotes a v.
Proof.
  intros L. destruct (parse_uint u32_max a) as [v|] eqn:P.
  - apply parse_short in P; [|exact L]. split; [discriminate|]. intros H. now apply H in P.
  - split; [|auto]. intros _ v H. apply (parse_short a v L) in H. congruence.
Qed.

(** What is read from the text of a time of day; [None] if the text is too short. *)
Definition time_parts (f : str) : option (option (N * N * N)) :=
  match slice f 0 2 with
  | None => None
  | Some a => match parse_uint u32_max a with None => Some None | Some h =>
    match slice f 2 4 with
    | None => None
    | Some b => match parse_uint u32_max b with None => Some None | Some m =>
      match slice f 4 6 with
      | None => None
      | Some c => match parse_uint u32_max c with None => Some None | Some s => Some (Some (h, m, s)) end
      end end
    end end
  end.

Lemma slice_first f a : slice f 0 2 = Some a <-> exists t, f = a ++ t /\ utf8_bytes a = 2%nat.
Proof.
  rewrite slice_some by lia. setoid_rewrite byte_len_spec. split.
  - intros (x & t & -> & Hx & Ha). exists t. split; [|exact Ha]. destruct x as [|c x]; [reflexivity|].
    pose proof (utf8_at_least (c :: x)) as L. rewrite Hx in L. cbn in L. lia.
  - intros (t & -> & Ha). exists [], t. auto.
Qed.

Lemma slice_second f a b : slice f 0 2 = Some a ->
  slice f 2 4 = Some b <-> exists t, f = a ++ b ++ t /\ utf8_bytes b = 2%nat.
Proof.
  intros H. rewrite slice_some by lia. setoid_rewrite byte_len_spec. split.
  - intros (x & t & E & Hx & Hb). exists t. split; [|exact Hb].
    assert (X : slice f 0 2 = Some x) by (apply slice_first; eauto). congruence.
  - intros (t & E & Hb). exists a, t. apply slice_first in H as (_ & _ & Ha). auto.
Qed.

Lemma utf8_app a b : utf8_bytes (a ++ b) = (utf8_bytes a + utf8_bytes b)%nat.
Proof. unfold utf8_bytes. rewrite map_app. apply list_sum_app. Qed.

Lemma slice_four f x y : slice f 0 4 = Some x -> slice f 0 4 = Some y -> x = y.
Proof. congruence. Qed.

Lemma slice_third f a b c : slice f 0 2 = Some a -> slice f 2 4 = Some b ->
  slice f 4 6 = Some c <-> exists t, f = a ++ b ++ c ++ t /\ utf8_bytes c = 2%nat.
Proof.
  intros Ha Hb. pose proof Ha as Ha'. apply slice_first in Ha' as (_ & _ & La). apply (slice_second f a b Ha) in Hb as (r & E & Lb).
  rewrite slice_some by lia. setoid_rewrite byte_len_spec. split.
  - intros (x & t & E' & Hx & Hc). exists t. split; [|exact Hc].
    assert (X : slice f 0 4 = Some x) by (apply slice_some; [lia|]; exists [], (c ++ t); rewrite !byte_len_spec; auto).
    assert (Y : slice f 0 4 = Some (a ++ b)).
    { apply slice_some; [lia|]. exists [], r. rewrite !byte_len_spec, utf8_app, <- app_assoc. repeat split; [exact E|lia]. }
    rewrite X in Y. injection Y as ->. now rewrite <- app_assoc in E'.
  - intros (t & E' & Hc). exists (a ++ b), t. rewrite utf8_app, <- app_assoc. repeat split; auto; lia.
Qed.

Lemma two_bytes a : utf8_bytes a = 2%nat -> (List.length a <= 2)%nat.
Proof. intros H. pose proof (utf8_at_least a). lia. Qed.

Lemma time_parts_spec f o : time_parts f = Some o <-> time_text f o.
Proof.
  unfold time_parts. split.
  - destruct (slice f 0 2) as [a|] eqn:A; [|discriminate]. pose proof A as A'. apply slice_first in A' as (r1 & E1 & La).
    destruct (parse_uint u32_max a) as [h|] eqn:PA.
    2:{ intros X. injection X as <-. eapply unreadable_hour; eauto. apply parse_short_none; [now apply two_bytes|exact PA]. }
    apply parse_short in PA; [|now apply two_bytes].
    destruct (slice f 2 4) as [b|] eqn:B; [|discriminate]. pose proof B as B'. apply (slice_second f a b A) in B' as (r2 & E2 & Lb).
    destruct (parse_uint u32_max b) as [m|] eqn:PB.
    2:{ intros X. injection X as <-. eapply unreadable_minute; eauto. apply parse_short_none; [now apply two_bytes|exact PB]. }
    apply parse_short in PB; [|now apply two_bytes].
    destruct (slice f 4 6) as [c|] eqn:C; [|discriminate]. pose proof C as C'. apply (slice_third f a b c A B) in C' as (r3 & E3 & Lc).
    destruct (parse_uint u32_max c) as [s|] eqn:PC; intros X; injection X as <-.
    + apply parse_short in PC; [|now apply two_bytes]. eapply time_readable; eauto.
    + eapply unreadable_second; eauto. apply parse_short_none; [now apply two_bytes|exact PC].
  - intros [a b c rest h m s E La Lb Lc Da Db Dc|a rest E La Da|a b rest h E La Lb Da Db|a b c rest h m E La Lb Lc Da Db Dc].
    + assert (A : slice f 0 2 = Some a) by (apply slice_first; eauto).
      assert (B : slice f 2 4 = Some b) by (apply (slice_second f a b A); eauto).
      assert (C : slice f 4 6 = Some c) by (apply (slice_third f a b c A B); eauto). rewrite A, B, C.
      apply parse_short in Da, Db, Dc; try now apply two_bytes. now rewrite Da, Db, Dc.
    + assert (A : slice f 0 2 = Some a) by (apply slice_first; eauto). rewrite A.
      apply parse_short_none in Da; [|now apply two_bytes]. now rewrite Da.
    + assert (A : slice f 0 2 = Some a) by (apply slice_first; eauto).
      assert (B : slice f 2 4 = Some b) by (apply (slice_second f a b A); eauto). rewrite A, B.
      apply parse_short in Da; [|now apply two_bytes]. apply parse_short_none in Db; [|now apply two_bytes]. now rewrite Da, Db.
    + assert (A : slice f 0 2 = Some a) by (apply slice_first; eauto).
      assert (B : slice f 2 4 = Some b) by (apply (slice_second f a b A); eauto).
      assert (C : slice f 4 6 = Some c) by (apply (slice_third f a b c A B); eauto). rewrite A, B, C.
      apply parse_short in Da, Db; try now apply two_bytes. apply parse_short_none in Dc; [|now apply two_bytes]. now rewrite Da, Db, Dc.
Qed.

Lemma parse_hhmmss_parts f now : ok_opt (F := ParseError) (parse_hhmmss f now) =
  match time_parts f with
  | None => Panic
  | Some None => Ok None
  | Some (Some (h, m, s)) => ok_opt (@ymd_and_hms str (dt_year now) (dt_month now) (dt_day now) h m s)
  end.
Proof.
  unfold parse_hhmmss, time_parts. cbv zeta.
  repeat match goal with |- context [match ?x with Some _ => _ | None => _ end] => destruct x; try reflexivity end.
Qed.

Lemma decides_panics {E A} (m : outcome E A) (P : A -> Prop) :
  m = Panic -> (forall a, ~ P a) -> decides m P False (forall a, ~ P a).
Proof.
  intros -> H. constructor.
  - intros a. split; [discriminate|intros X; now apply H in X].
  - split; [intros [e X]; discriminate|tauto].
  - tauto.
Qed.

Lemma decides_total {E A} (m : outcome E A) (P : A -> Prop) a :
  m = Ok a -> (forall b, P b <-> b = a) -> decides m P False (forall a, ~ P a).
Proof.
  intros Hm H. destruct (decides_value m P a Hm H) as [H1 H2 H3]. constructor; auto.
  rewrite H3. split; [tauto|]. intros X. apply (X a). now apply H.
Qed.

Lemma hhmmss_decides f now : clock now ->
  decides (ok_opt (F := ParseError) (parse_hhmmss f now)) (time_stamp now f) False (forall o, ~ time_stamp now f o).
Proof.
  intros (Y & D & _). rewrite parse_hhmmss_parts. pose proof (time_parts_spec f) as T.
  destruct (time_parts f) as [[[[h m] s]|]|].
  - assert (U : forall o, time_text f o <-> o = Some (h, m, s)) by (intros o; rewrite <- T; split; [congruence|now intros ->]).
    destruct (@ymd_and_hms_cases str (dt_year now) (dt_month now) (dt_day now) h m s) as [(-> & _ & _ & V)|(-> & V)].
    + cbn [ok_opt]. eapply decides_total; [reflexivity|]. intros o. split.
      * intros [X|h' m' s' X _]; apply U in X; [discriminate|]. injection X as -> -> ->. reflexivity.
      * intros ->. apply time_stamp_some; [now apply U|exact V].
    + cbn [ok_opt]. apply decides_panics; [reflexivity|]. intros o [X|h' m' s' X W]; apply U in X; [discriminate|].
      injection X as -> -> ->. tauto.
  - assert (U : forall o, time_text f o <-> o = None) by (intros o; rewrite <- T; split; [congruence|now intros ->]).
    eapply decides_total; [reflexivity|]. intros o. split.
    + intros [X|h' m' s' X _]; apply U in X; [reflexivity|discriminate].
    + intros ->. apply time_stamp_none. now apply U.
  - assert (U : forall o, ~ time_text f o) by (intros o X; apply T in X; discriminate).
    apply decides_panics; [reflexivity|]. intros o [X|h' m' s' X _]; now apply U in X.
Qed.

(** ** Dates *)

Lemma pick_s2_pair f i : pick_s2 f i = pair_at f i. Proof. reflexivity. Qed.
Lemma pair_at_length f i : (List.length (pair_at f i) <= 2)%nat. Proof. unfold pair_at. rewrite firstn_length. lia. Qed.

Lemma parse_i32_short a z : (List.length a <= 2)%nat -> parse_i32 a = Some z <-> signed_number a z.
Proof.
  intros L. unfold parse_i32, signed_number. destruct a as [|c t].
  - split; [discriminate|]. intros [(v & (ds & [<- | E] & [N _] & _) & _)|(ds & E & _)]; [now destruct N|discriminate|discriminate].
  - assert (Pos : forall z, option_map Z.of_N (parse_uint u32_max (c :: t)) = Some z <-> exists v, denotes (c :: t) v /\ z = Z.of_N v).
    { intros z'. split.
      - destruct (parse_uint u32_max (c :: t)) as [v|] eqn:P; [|discriminate]. intros X. injection X as <-. apply parse_uint_spec in P. exists v. tauto.
      - intros (v & Hv & ->). apply (parse_short _ _ L) in Hv. now rewrite Hv. }
    assert (Small : forall s max, (List.length s <= 2)%nat -> 99 <= max -> digits_acc max 0 s = digits_acc u32_max 0 s).
    { intros s max Ls Hm. assert (forall v, digits_acc max 0 s = Some v <-> digits_acc u32_max 0 s = Some v).
      { intros v. rewrite !digits_acc_some. split; intros (F & V & B); repeat split; auto.
        all: pose proof (numeral_value_lt s F) as X; assert (10 ^ N.of_nat (List.length s) <= 10 ^ 2) by (apply N.pow_le_mono_r; lia);
          unfold u32_max in *; lia. }
      destruct (digits_acc max 0 s) as [v|] eqn:E1, (digits_acc u32_max 0 s) as [w|] eqn:E2; auto.
      - symmetry. now apply H.
      - symmetry in H. destruct (H v) as [H1 H2]. now specialize (H2 eq_refl).
      - destruct (H w) as [H1 H2]. now specialize (H2 eq_refl). }
    destruct (N.eqb_spec c 43) as [-> |C1]; [|destruct (N.eqb_spec c 45) as [-> |C2]].
    + assert (E : match t with [] => None | _ :: _ => option_map Z.of_N (digits_acc 2147483647 0 t) end = option_map Z.of_N (parse_uint u32_max (43 :: t))).
      { unfold parse_uint. rewrite N.eqb_refl. destruct t as [|d t]; [reflexivity|]. f_equal. apply Small; cbn in L |- *; lia. }
      rewrite E, Pos. split; [now left|]. intros [H|(ds & X & _)]; [exact H|discriminate].
    + split.
      * destruct t as [|d t]; [discriminate|]. destruct (digits_acc 2147483648 0 (d :: t)) as [v|] eqn:P; [|discriminate].
        intros X. injection X as <-. apply digits_acc_some in P as (F & V & _). right. exists (d :: t).
        split; [reflexivity|]. split; [split; [discriminate|exact F]|]. now rewrite V.
      * intros [(v & (ds & [<- | E] & [_ F] & _) & _)|(ds & E & [N F] & ->)]; [|discriminate|].
        -- inversion F as [|? ? X]; subst. lia.
        -- injection E as ->. destruct ds as [|d ds]; [now destruct N|].
           assert (P : digits_acc 2147483648 0 (d :: ds) = Some (numeral_value (d :: ds))).
           { rewrite Small by (cbn in L |- *; lia). apply digits_acc_some. repeat split; auto.
             pose proof (numeral_value_lt _ F) as X. assert (10 ^ N.of_nat (List.length (d :: ds)) <= 10 ^ 2) by (apply N.pow_le_mono_r; cbn in L |- *; lia).
             unfold u32_max. lia. }
           now rewrite P.
    + assert (E : option_map Z.of_N (digits_acc 2147483647 0 (c :: t)) = option_map Z.of_N (parse_uint u32_max (c :: t))).
      { unfold parse_uint. apply N.eqb_neq in C1. rewrite C1. f_equal. apply Small; lia. }
      rewrite E, Pos. split; [now left|]. intros [H|(ds & X & _)]; [exact H|injection X as ->; now destruct C2].
Qed.

Lemma yymmdd_decides fd ft now : (0 <= dt_year now)%Z ->
  decides (ok_opt (F := ParseError) (parse_yymmdd_hhmmss fd ft now)) (date_time_stamp now fd ft) False
    (forall o, ~ date_time_stamp now fd ft o).
Proof.
  intros Y. unfold parse_yymmdd_hhmmss. cbv zeta. change pick_s2 with pair_at.
  replace (Z.quot (dt_year now) 100 * 100)%Z with (century now) by (unfold century; rewrite Z.quot_div_nonneg by lia; reflexivity).
  assert (None_case : (forall d mo y h mi s, ~ date_time_numbers fd ft d mo y h mi s) ->
    forall o, date_time_stamp now fd ft o <-> o = None).
  { intros N o. split; [intros [_|d mo y h mi s X _ _ _]; [reflexivity|now apply N in X]|]. intros ->. now constructor. }
  destruct (parse_uint u32_max (pair_at fd 0)) as [d|] eqn:E1.
  2:{ eapply decides_total; [reflexivity|]. apply None_case. intros d mo y h mi s (H & _).
      apply parse_short_none with (v := d) in E1; [auto|apply pair_at_length]. }
  destruct (parse_uint u32_max (pair_at fd 2)) as [mo|] eqn:E2.
  2:{ eapply decides_total; [reflexivity|]. apply None_case. intros d' mo y h mi s (_ & H & _).
      apply parse_short_none with (v := mo) in E2; [auto|apply pair_at_length]. }
  destruct (parse_i32 (pair_at fd 4)) as [y|] eqn:E3.
  2:{ eapply decides_total; [reflexivity|]. apply None_case. intros d' mo' y h mi s (_ & _ & H & _).
      apply parse_i32_short in H; [congruence|apply pair_at_length]. }
  destruct (parse_uint u32_max (pair_at ft 0)) as [h|] eqn:E4.
  2:{ eapply decides_total; [reflexivity|]. apply None_case. intros d' mo' y' h mi s (_ & _ & _ & H & _).
      apply parse_short_none with (v := h) in E4; [auto|apply pair_at_length]. }
  destruct (parse_uint u32_max (pair_at ft 2)) as [mi|] eqn:E5.
  2:{ eapply decides_total; [reflexivity|]. apply None_case. intros d' mo' y' h' mi s (_ & _ & _ & _ & H & _).
      apply parse_short_none with (v := mi) in E5; [auto|apply pair_at_length]. }
  destruct (parse_uint u32_max (pair_at ft 4)) as [s|] eqn:E6.
  2:{ eapply decides_total; [reflexivity|]. apply None_case. intros d' mo' y' h' mi' s (_ & _ & _ & _ & _ & H).
      apply parse_short_none with (v := s) in E6; [auto|apply pair_at_length]. }
  assert (U : forall d' mo' y' h' mi' s', date_time_numbers fd ft d' mo' y' h' mi' s' <->
    d' = d /\ mo' = mo /\ y' = y /\ h' = h /\ mi' = mi /\ s' = s).
  { intros d' mo' y' h' mi' s'. unfold date_time_numbers. rewrite <- !(parse_short (pair_at _ _)) by apply pair_at_length.
    rewrite <- parse_i32_short by apply pair_at_length. rewrite E1, E2, E3, E4, E5, E6. split.
    - intros (A & B & C & D & E & F). repeat split; congruence.
    - intros (-> & -> & -> & -> & -> & ->). repeat split. }
  assert (V : forall o, date_time_stamp now fd ft o <-> o = Some (mk_datetime (century now + y) mo d h mi s 0) /\
    year_in_range (century now + y) /\ valid_date (century now + y) mo d /\ valid_time h mi s).
  { intros o. split.
    - intros [N|d' mo' y' h' mi' s' X A B C]; [exfalso; apply (N d mo y h mi s); apply U; auto 10|].
      apply U in X as (-> & -> & -> & -> & -> & ->). auto.
    - intros (-> & A & B & C). constructor; auto. apply U. auto 10. }
  destruct (@ymd_and_hms_cases str (century now + y) mo d h mi s) as [(-> & W)|(-> & W)]; cbn [ok_opt].
  - eapply decides_total; [reflexivity|]. intros o. rewrite V. tauto.
  - apply decides_panics; [reflexivity|]. intros o X. apply V in X. tauto.
Qed.

(** ** The other fields *)

Lemma number_spec {A} (parse : str -> option A) (means : str -> A -> Prop) h fs i :
  (forall s v, parse s = Some v <-> means s v) ->
  decides (number parse (h :: fs) (S i)) (field_value means (fld fs i)) (malformed means (fld fs i)) False.
Proof. intros H. exact (number_decides parse means (h :: fs) (S i) H). Qed.

Lemma gsa_prns_decides h fs n i : decides (gsa_prns (h :: fs) (seq (S i) n))
  (numbers_in (flds fs i n)) (Exists (malformed (number_text 255)) (flds fs i n)) False.
Proof.
  revert i. induction n as [|n IH]; intros i; unfold flds; cbn [seq map gsa_prns].
  - apply decides_iff with (P := fun l => l = []) (F := False) (K := False); [apply (decides_value _ _ []); [reflexivity|tauto]|..].
    + intros l. split; [intros ->; constructor|]. now inversion 1.
    + split; [tauto|]. now inversion 1.
    + tauto.
  - change (field (h :: fs) (S i)) with (fld fs i). rewrite str_eqb_nil_r. destruct (fld fs i) as [|c f] eqn:E; cbn [negb].
    + eapply decides_iff; [apply IH|..]; [| |tauto].
      * intros l. split; [now constructor|]. inversion 1 as [|? ? X|? ? ? ? N]; subst; [exact X|now destruct N].
      * split; [now constructor|]. inversion 1 as [? ? X|? ? X]; subst; [|exact X]. now destruct X as [X _].
    + pose proof (number_spec parse_u8 (number_text 255) h fs i parse_u8_means) as H. rewrite E in H.
      eapply decides_iff.
      * eapply decides_bind_safe; [exact H|]. intros o Ho. eapply decides_bind_safe; [apply IH|]. intros l Hl.
        eapply decides_value with (P := fun b => b = match o with Some v => v :: l | None => l end); [reflexivity|tauto].
      * intros l. cbv beta. split.
        -- intros (o & [X|v N V] & l' & Hl & ->); [discriminate|]. now constructor.
        -- inversion 1 as [| |? ? v l' N V Hl]; subst. exists (Some v). split; [now constructor|]. eauto.
      * split; [intros [X|[X|[]]]; [now left|now right]|]. inversion 1; subst; auto.
      * tauto.
Qed.

Lemma variation_decides h fs :
  decides (rmc_variation_field (h :: fs)) (field_value (variation (fld fs 10)) (fld fs 9)) (malformed (variation (fld fs 10)) (fld fs 9)) False.
Proof.
  unfold rmc_variation_field. pose proof (number_spec parse_f64 reads_double h fs 9 parse_f64_reads) as H.
  change (field (h :: fs) 11) with (fld fs 10). set (f := fld fs 9) in *. set (side := fld fs 10).
  eapply decides_iff with (P := fun o => exists v, field_value reads_double f v /\
      match v with None => o = None | Some y => side = lit "E" /\ o = Some y \/ side = lit "W" /\ o = Some (f64_neg y) end)
    (F := malformed reads_double f \/ exists v, field_value reads_double f (Some v) /\ side <> lit "E" /\ side <> lit "W") (K := False).
  - destruct H as [H1 H2 H3]. destruct (number parse_f64 (h :: fs) 10) as [[y|]|e|]; cbn [bind].
    + assert (Y : field_value reads_double f (Some y)) by now apply H1.
      assert (U : forall o, field_value reads_double f o -> o = Some y) by (intros o Ho; apply H1 in Ho; congruence).
      assert (NF : ~ malformed reads_double f) by (intros X; apply H2 in X as [e X]; discriminate).
      destruct (str_eqb_spec side (lit "E")) as [-> |NE]; [|destruct (str_eqb_spec side (lit "W")) as [-> |NW]].
      * apply decides_iff with (P := fun b => b = Some y) (F := False) (K := False); [apply (decides_value _ _ (Some y)); [reflexivity|tauto]|..].
        -- intros o. split; [intros ->; exists (Some y); auto|]. intros (v & Hv & M). apply U in Hv as ->. destruct M as [[_ M]|[X _]]; [exact M|discriminate X].
        -- split; [tauto|]. intros [X|(v & _ & X & _)]; [auto|now destruct X].
        -- tauto.
      * apply decides_iff with (P := fun b => b = Some (f64_neg y)) (F := False) (K := False); [apply (decides_value _ _ (Some (f64_neg y))); [reflexivity|tauto]|..].
        -- intros o. split; [intros ->; exists (Some y); auto|]. intros (v & Hv & M). apply U in Hv as ->. destruct M as [[X _]|[_ M]]; [discriminate X|exact M].
        -- split; [tauto|]. intros [X|(v & _ & _ & X)]; [auto|now destruct X].
        -- tauto.
      * eapply decides_error; [reflexivity|..].
        -- intros o (v & Hv & M). apply U in Hv as ->. destruct M as [[X _]|[X _]]; auto.
        -- right. exists y. auto.
    + assert (Y : field_value reads_double f None) by now apply H1.
      assert (U : forall o, field_value reads_double f o -> o = None) by (intros o Ho; apply H1 in Ho; congruence).
      apply decides_iff with (P := fun b => b = None) (F := False) (K := False); [apply (decides_value _ _ None); [reflexivity|tauto]|..].
      * intros o. split; [intros ->; exists None; auto|]. intros (v & Hv & M). now apply U in Hv as ->.
      * split; [tauto|]. intros [X|(v & X & _)]; [apply H2 in X as [e X]; discriminate|apply U in X; discriminate].
      * tauto.
    + eapply decides_error; [reflexivity|..].
      * intros o (v & Hv & M). apply H1 in Hv. discriminate.
      * left. apply H2. eauto.
    + exfalso. now apply H3.
  - intros o. split.
    + intros (v & [E|y N R] & M); [subst o; now constructor|].
      destruct M as [[S ->]|[S ->]]; (constructor; [exact N|]); exists y; auto.
    + intros [E|x N (y & R & M)]; [exists None; split; [now constructor|reflexivity]|].
      exists (Some y). split; [now constructor|]. destruct M as [[S ->]|[S ->]]; auto.
  - split.
    + intros [[N X]|(v & Hv & A & B)].
      * split; [exact N|]. intros x (y & R & _). now apply X in R.
      * inversion Hv as [|? N R]; subst. split; [exact N|]. intros x (y & _ & [[S _]|[S _]]); auto.
    + intros [N X]. destruct H as [H1 H2 H3]. destruct (number parse_f64 (h :: fs) 10) as [[y|]|e|].
      * right. exists y. assert (Y : field_value reads_double f (Some y)) by now apply H1. split; [exact Y|].
        inversion Y as [|? _ R]; subst. split; intros S; eapply X; exists y; (split; [exact R|]); [left|right]; auto.
      * assert (Y : field_value reads_double f None) by now apply H1. inversion Y; subst. now destruct N.
      * left. apply H2. eauto.
      * exfalso. now apply H3.
  - tauto.
Qed.

Lemma quality_model o : GgaQualityIndicator_new (unwrap_or o 0) = quality o.
Proof.
  destruct o as [q|]; [|reflexivity]. cbn [unwrap_or quality]. destruct (N.lt_ge_cases q 9) as [H|H].
  - assert (In q (map N.of_nat (seq 0 9))) as I.
    { apply in_map_iff. exists (N.to_nat q). rewrite N2Nat.id. split; [reflexivity|]. apply in_seq. lia. }
    cbn in I. repeat (destruct I as [<-|I]; [reflexivity|]). destruct I.
  - rewrite nth_overflow by (cbn [qualities List.length]; lia).
    destruct q as [|q]; [reflexivity|]. do 4 (destruct q as [q|q|]; try reflexivity; try lia).
Qed.

(** ** The handlers *)

Lemma decides_return {E A} (a : A) : decides (E := E) (Ok a) (fun b => b = a) False False.
Proof. apply (decides_value _ _ a); [reflexivity|tauto]. Qed.

Lemma handle_gga_decides now body nav h fs : split_on 44 body = h :: fs -> clock now ->
  decides (handle_gga now body nav) (fun r => exists d, r = PsGga d /\ gga_report now nav fs d)
    (~ (forall o, ~ time_stamp now (fld fs 0) o) /\ gga_malformed fs) (forall o, ~ time_stamp now (fld fs 0) o).
Proof.
  intros Hs Hc. unfold handle_gga. rewrite Hs. cbv zeta. eapply decides_iff.
  - eapply decides_bind_first; [apply (hhmmss_decides (fld fs 0) now Hc)|]. intros ts Hts.
    eapply decides_bind_safe; [apply (latitude_decides (fld fs 1) (fld fs 2))|]. intros lat Hlat.
    eapply decides_bind_safe; [apply (longitude_decides (fld fs 3) (fld fs 4))|]. intros lon Hlon.
    eapply decides_bind_safe; [apply (number_spec parse_u8 _ h fs 5 parse_u8_means)|]. intros q Hq.
    eapply decides_bind_safe; [apply (number_spec parse_u8 _ h fs 6 parse_u8_means)|]. intros sc Hsc.
    eapply decides_bind_safe; [apply (number_spec parse_f64 _ h fs 7 parse_f64_reads)|]. intros hd Hhd.
    eapply decides_bind_safe; [apply (number_spec parse_f64 _ h fs 8 parse_f64_reads)|]. intros al Hal.
    eapply decides_bind_safe; [apply (number_spec parse_f64 _ h fs 10 parse_f64_reads)|]. intros ge Hge.
    eapply decides_bind_safe; [apply (number_spec parse_f64 _ h fs 12 parse_f64_reads)|]. intros ag Hag.
    eapply decides_bind_safe; [apply (number_spec parse_u16 _ h fs 13 parse_u16_means)|]. intros re Hre.
    apply decides_return.
  - intros r. cbv beta. split.
    + intros (ts & H1 & lat & H2 & lon & H3 & q & H4 & sc & H5 & hd & H6 & al & H7 & ge & H8 & ag & H9 & re & H10 & ->).
      eexists. split; [reflexivity|]. rewrite quality_model. unfold gga_report. cbn. eauto 20.
    + intros (d & -> & H0 & H1 & H2 & H3 & (q & H4 & Hq) & H5 & H6 & H7 & H8 & H9 & H10). destruct d. cbn in *. subst.
      repeat (eexists; split; [eassumption|]). now rewrite quality_model.
  - unfold gga_malformed. tauto.
  - tauto.
Qed.

Lemma handle_rmc_decides now body nav h fs : split_on 44 body = h :: fs -> (0 <= dt_year now)%Z ->
  decides (handle_rmc now body nav) (fun r => exists d, r = PsRmc d /\ rmc_report now nav fs d)
    (~ (forall o, ~ date_time_stamp now (fld fs 8) (fld fs 0) o) /\ rmc_malformed fs)
    (forall o, ~ date_time_stamp now (fld fs 8) (fld fs 0) o).
Proof.
  intros Hs Hc. unfold handle_rmc. rewrite Hs. cbv zeta. eapply decides_iff.
  - eapply decides_bind_first; [apply (yymmdd_decides (fld fs 8) (fld fs 0) now Hc)|]. intros ts Hts.
    eapply decides_bind_safe; [apply (rmc_status_decides (fld fs 1))|]. intros st Hst.
    eapply decides_bind_safe; [apply (latitude_decides (fld fs 2) (fld fs 3))|]. intros lat Hlat.
    eapply decides_bind_safe; [apply (longitude_decides (fld fs 4) (fld fs 5))|]. intros lon Hlon.
    eapply decides_bind_safe; [apply (number_spec parse_f64 _ h fs 6 parse_f64_reads)|]. intros hd Hhd.
    eapply decides_bind_safe; [apply (number_spec parse_f64 _ h fs 7 parse_f64_reads)|]. intros al Hal.
    eapply decides_bind_safe; [apply (variation_decides h fs)|]. intros va Hva.
    apply decides_return.
  - intros r. cbv beta. split.
    + intros (ts & H1 & st & H2 & lat & H3 & lon & H4 & sog & H5 & be & H6 & va & H7 & ->).
      eexists. split; [reflexivity|]. unfold rmc_report. cbn. auto 10.
    + intros (d & -> & H0 & H1 & H2 & H3 & H4 & H5 & H6 & H7). destruct d. cbn in *. subst.
      repeat (eexists; split; [eassumption|]). reflexivity.
  - unfold rmc_malformed. tauto.
  - tauto.
Qed.

Lemma handle_gsa_decides body nav h fs : split_on 44 body = h :: fs ->
  decides (handle_gsa body nav) (fun r => exists d, r = PsGsa d /\ gsa_report nav fs d) (gsa_malformed fs) False.
Proof.
  intros Hs. unfold handle_gsa. rewrite Hs. cbv zeta. eapply decides_iff.
  - eapply decides_bind_safe; [apply (gsa_mode1_decides (fld fs 0))|]. intros m1 Hm1.
    eapply decides_bind_safe; [apply (gsa_mode2_decides (fld fs 1))|]. intros m2 Hm2.
    eapply decides_bind_safe; [apply (gsa_prns_decides h fs 12 2)|]. intros prns Hp.
    eapply decides_bind_safe; [apply (number_spec parse_f64 _ h fs 14 parse_f64_reads)|]. intros pd Hpd.
    eapply decides_bind_safe; [apply (number_spec parse_f64 _ h fs 15 parse_f64_reads)|]. intros hd Hhd.
    eapply decides_bind_safe; [apply (number_spec parse_f64 _ h fs 16 parse_f64_reads)|]. intros vd Hvd.
    apply decides_return.
  - intros r. cbv beta. unfold gsa_report. generalize (flds fs 2 12). intros l. split.
    + intros (m1 & H1 & m2 & H2 & pr & H3 & pd & H4 & hd & H5 & vd & H6 & ->).
      eexists. split; [reflexivity|]. cbn. auto 10.
    + intros (d & -> & H0 & H1 & H2 & H3 & H4 & H5 & H6). destruct d. cbn in *. subst.
      repeat (eexists; split; [eassumption|]). reflexivity.
  - unfold gsa_malformed. tauto.
  - tauto.
Qed.

Lemma handle_gll_decides now body nav h fs : split_on 44 body = h :: fs -> clock now ->
  decides (handle_gll now body nav) (fun r => exists d, r = PsGll d /\ gll_report now nav fs d)
    (gll_malformed fs) (~ gll_malformed fs /\ forall o, ~ time_stamp now (fld fs 4) o).
Proof.
  intros Hs Hc. unfold handle_gll. rewrite Hs. cbv zeta. eapply decides_iff.
  - eapply decides_bind; [apply (latitude_decides (fld fs 0) (fld fs 1))|]. intros lat Hlat.
    eapply decides_bind; [apply (longitude_decides (fld fs 2) (fld fs 3))|]. intros lon Hlon.
    eapply decides_bind_first; [apply (hhmmss_decides (fld fs 4) now Hc)|]. intros ts Hts.
    apply decides_return.
  - intros r. cbv beta. split.
    + intros (lat & H1 & lon & H2 & ts & H3 & ->).
      eexists. split; [reflexivity|]. unfold gll_report. cbn. repeat split; auto; [now apply gll_valid_means|now apply faa_mode_means].
    + intros (d & -> & H0 & H1 & H2 & H3 & H4 & H5). apply gll_valid_means in H4. apply faa_mode_means in H5. destruct d. cbn in *. subst.
      repeat (eexists; split; [eassumption|]). reflexivity.
  - unfold gll_malformed. tauto.
  - unfold gll_malformed. tauto.
Qed.

Lemma handle_vtg_means body nav h fs d : split_on 44 body = h :: fs ->
  handle_vtg body nav = Ok (PsVtg d) <-> vtg_report nav fs d.
Proof.
  intros Hs. unfold handle_vtg, vtg_report. rewrite Hs. cbv zeta.
  pose proof (fun i o => number_lenient_means parse_f64 reads_double (h :: fs) i o parse_f64_reads) as N.
  rewrite <- (N 1%nat), <- (N 3%nat), <- (N 5%nat), <- (N 7%nat), <- faa_mode_means. destruct d. cbn. split.
  - intros E. injection E as <- <- <- <- <- <-. repeat split.
  - intros (-> & <- & <- & <- & <- & <-). reflexivity.
Qed.

Lemma gnss_with_body s tt fff fields : gnss_with s tt fff fields -> plain tt ->
  exists body given, has_body s body given /\ checksum_ok body given /\
    split_on 44 body = (lit "$" ++ tt ++ fff) :: fields /\
    (forall ovf now p r, plain_gnss now body (nav_of_talker tt) fff r -> parse_sentence ovf now s p = (r, p)).
Proof.
  intros ((body & given & Hb & Hc & Hf) & Hne & Ht) Hp. exists body, given. split; [exact Hb|]. split; [exact Hc|].
  apply has_fields_split in Hf. split; [now symmetry|]. intros ovf now p r Hr.
  pose proof (proj2 (has_fields_split body _) Hf) as (_ & _ & Hj). rewrite join_cons in Hj by exact Hne.
  rewrite <- byte_len_spec in Ht. exact (parse_plain ovf now s p body given tt fff (join fields) r Hb Hc Hj Hp Ht Hr).
Qed.

Lemma gnss_with_plain s tt fff fields : gnss_with s tt fff fields -> plain tt.
Proof.
  intros ((body & given & _ & _ & Hf) & _ & _). destruct Hf as (_ & Hp & _). apply Forall_inv in Hp.
  apply plain_app_inv in Hp as [_ Hp]. now apply plain_app_inv in Hp as [Hp _].
Qed.
