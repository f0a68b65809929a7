(** Reading decimal numbers: the model's [parse_f64] against the specification. *)
From Coq Require Import List NArith ZArith Bool String Reals Psatz Floats.SpecFloat.
From Flocq Require Import Core.
From Verif Require Import Base Str F64 SpecText SpecReal StrFacts FloatFacts.
Import ListNotations.
Open Scope R_scope.

(** ** The overflow threshold *)

Lemma max_double_format : generic_format radix2 fexp64 (bpow radix2 1024 - bpow radix2 971).
Proof.
  apply double_value_format. exists (2 ^ 53 - 1)%Z, 971%Z. split; [|lia].
  rewrite powerRZ_bpow, minus_IZR, Rmult_minus_distr_r. change (IZR (2 ^ 53)) with (bpow radix2 53).
  rewrite <- bpow_plus. change (53 + 971)%Z with 1024%Z. now rewrite Rmult_1_l.
Qed.

Lemma bpow_double k : bpow radix2 (k + 1) = 2 * bpow radix2 k.
Proof. rewrite bpow_plus. change (bpow radix2 1) with 2. ring. Qed.

Lemma bpow_1024 : bpow radix2 1024 = IZR (2 ^ 53) * bpow radix2 971.
Proof. change (IZR (2 ^ 53)) with (bpow radix2 53). now rewrite <- bpow_plus. Qed.

Lemma max_double_odd : ~ NE_prop radix2 fexp64 0 (bpow radix2 1024 - bpow radix2 971).
Proof.
  intros (g & Hg & Cg & Eg).
  assert (C : canonical radix2 fexp64 (Float radix2 (2 ^ 53 - 1) 971)).
  { assert (P : proper (S754_finite false (Z.to_pos (2 ^ 53 - 1)) 971)) by (cbn; lia).
    apply proper_format in P as [P _]. exact P. }
  assert (E : F2R (Float radix2 (2 ^ 53 - 1) 971) = F2R g).
  { rewrite <- Hg. unfold F2R. cbn [Fnum Fexp]. rewrite minus_IZR, Rmult_minus_distr_r, <- bpow_1024. ring. }
  pose proof (canonical_unique _ _ _ _ C Cg E) as <-. cbn in Eg. discriminate.
Qed.

(** No double between the largest one and the next power of two. *)
Lemma no_format_between g : generic_format radix2 fexp64 g ->
  bpow radix2 1024 - bpow radix2 971 < g -> g < bpow radix2 1024 -> False.
Proof.
  intros Hg H1 H2. pose proof (bpow_gt_0 radix2 971) as P.
  assert (P23 : bpow radix2 971 < bpow radix2 1023) by (apply bpow_lt; lia).
  assert (E24 : bpow radix2 1024 = 2 * bpow radix2 1023) by apply (bpow_double 1023).
  assert (Hm : mag radix2 g = 1024%Z :> Z).
  { apply mag_unique. rewrite Rabs_pos_eq by lra. change (1024 - 1)%Z with 1023%Z. lra. }
  unfold generic_format, F2R in Hg. cbn [Fnum Fexp] in Hg. unfold cexp in Hg. rewrite Hm in Hg.
  change (fexp64 1024) with 971%Z in Hg. set (m := Ztrunc _) in Hg. rewrite bpow_1024 in H1, H2.
  rewrite Hg in H1, H2.
  assert (A : (m < 2 ^ 53)%Z).
  { apply lt_IZR. now apply Rmult_lt_reg_r with (bpow radix2 971). }
  assert (B : (2 ^ 53 - 1 < m)%Z).
  { apply lt_IZR. apply Rmult_lt_reg_r with (bpow radix2 971); [exact P|]. rewrite minus_IZR. lra. }
  lia.
Qed.

Lemma rnd_overflow v : 0 <= v -> (rnd v < bpow radix2 1024 <-> v < double_overflow).
Proof.
  intros Hv. unfold double_overflow. rewrite !powerRZ_bpow.
  set (M := bpow radix2 1024 - bpow radix2 970).
  assert (E971 : bpow radix2 971 = 2 * bpow radix2 970) by apply (bpow_double 970).
  pose proof (bpow_gt_0 radix2 970) as P970.
  assert (F1024 : generic_format radix2 fexp64 (bpow radix2 1024)).
  { apply generic_format_bpow. unfold fexp, SpecFloat.emin. lia. }
  split; intros H.
  - destruct (Rlt_le_dec v M) as [L|L]; [exact L|]. exfalso. apply rnd_le in L.
    enough (rnd M = bpow radix2 1024) by lra.
    pose proof (rnd_pt M) as [[HF HN] Ht].
    assert (N1 : Rabs (rnd M - M) <= bpow radix2 970).
    { eapply Rle_trans; [apply (HN _ F1024)|]. unfold M. rewrite Rabs_pos_eq; lra. }
    assert (Hlo : bpow radix2 1024 - bpow radix2 971 <= rnd M).
    { rewrite <- (rnd_exact _ max_double_format). apply rnd_le. unfold M. lra. }
    assert (Hhi : rnd M <= bpow radix2 1024).
    { rewrite <- (rnd_exact _ F1024). apply rnd_le. unfold M. lra. }
    (* in [max, 2^1024], at distance exactly half *)
    assert (NP : forall f, generic_format radix2 fexp64 f -> f = bpow radix2 1024 - bpow radix2 971 \/ f = bpow radix2 1024 ->
                 Rnd_N_pt (generic_format radix2 fexp64) M f).
    { intros f Ff Hf. split; [exact Ff|]. intros g Hg.
      assert (Ef : Rabs (f - M) = bpow radix2 970).
      { destruct Hf as [-> | ->]; unfold M; [rewrite Rabs_left|rewrite Rabs_pos_eq]; lra. }
      rewrite Ef. destruct (Rle_lt_dec g M) as [G|G].
      - (* g below M: at most max *)
        destruct (Rle_lt_dec g (bpow radix2 1024 - bpow radix2 971)) as [G'|G'].
        + rewrite Rabs_left1; unfold M in *; lra.
        + exfalso. apply (no_format_between g); [exact Hg|exact G'|unfold M in G; lra].
      - destruct (Rle_lt_dec (bpow radix2 1024) g) as [G'|G'].
        + rewrite Rabs_pos_eq; unfold M in *; lra.
        + exfalso. apply (no_format_between g); [exact Hg|unfold M in G; lra|exact G']. }
    destruct (Rlt_le_dec (rnd M) (bpow radix2 1024)) as [L'|L']; [|lra].
    assert (EM : rnd M = bpow radix2 1024 - bpow radix2 971).
    { destruct (Rlt_le_dec (bpow radix2 1024 - bpow radix2 971) (rnd M)) as [L''|L'']; [|lra].
      exfalso. apply (no_format_between (rnd M)); assumption. }
    destruct Ht as [Ht|Ht].
    + exfalso. apply max_double_odd. rewrite <- EM. exact Ht.
    + exfalso. specialize (Ht _ (NP _ F1024 (or_intror eq_refl))). lra.
  - destruct (Rlt_le_dec (rnd v) (bpow radix2 1024)) as [L|L]; [exact L|]. exfalso.
    pose proof (rnd_pt v) as [[HF HN] _]. specialize (HN _ max_double_format).
    unfold M in H. rewrite (Rabs_pos_eq (rnd v - v)) in HN by lra.
    destruct (Rle_lt_dec v (bpow radix2 1024 - bpow radix2 971)) as [G|G].
    + apply rnd_le in G. rewrite (rnd_exact _ max_double_format) in G. lra.
    + rewrite Rabs_left in HN by lra. lra.
Qed.

(** ** Text *)
Open Scope N_scope.

Lemma digit_spec c : is_digit c = true <-> digit c.
Proof. apply is_digit_spec. Qed.

Definition no_digit_first (s : str) : Prop := match s with [] => True | c :: _ => ~ digit c end.

Lemma span_digits_app a b : Forall digit a -> no_digit_first b -> span_digits (a ++ b) = (a, b).
Proof.
  intros Ha Hb. induction Ha as [|c a Hc Ha IH].
  - destruct b as [|c b]; [reflexivity|]. cbn [app span_digits]. destruct (is_digit c) eqn:E; [|reflexivity].
    apply digit_spec in E. now destruct Hb.
  - cbn [app span_digits]. rewrite (proj2 (digit_spec c) Hc), IH. reflexivity.
Qed.

Lemma span_digits_spec s a b : span_digits s = (a, b) -> s = a ++ b /\ Forall digit a /\ no_digit_first b.
Proof.
  revert a b. induction s as [|c s IH]; intros a b H; cbn [span_digits] in H.
  - injection H as <- <-. repeat constructor.
  - destruct (is_digit c) eqn:E.
    + destruct (span_digits s) as [a' b']. injection H as <- <-. destruct (IH _ _ eq_refl) as (-> & Ha & Hb).
      apply digit_spec in E. repeat split; auto.
    + injection H as <- <-. repeat split; [constructor|]. cbn. intros D. apply digit_spec in D. congruence.
Qed.

Lemma digits_value_numeral ds : Forall digit ds -> digits_value ds = numeral_value ds.
Proof.
  intros _. unfold digits_value, numeral_value.
  assert (G : forall v, fold_left (fun acc c => acc * 10 + (c - 48)) ds v = fold_left (fun v d => 10 * v + (d - 48)) ds v).
  { induction ds as [|d ds IH]; intros v; [reflexivity|]. cbn [fold_left]. rewrite IH. f_equal. lia. }
  apply G.
Qed.

(** The first character of a sign, of an exponent, of a dot is not a digit. *)
Lemma sign_text_split s neg rest : sign_text s neg -> (forall c t, rest = c :: t -> c <> 43 /\ c <> 45) ->
  match s ++ rest with
  | c :: t => if c =? 45 then (true, t) else if c =? 43 then (false, t) else (false, s ++ rest)
  | [] => (false, s ++ rest)
  end = (neg, rest).
Proof.
  intros [[-> ->]|[[-> ->]|[-> ->]]] H; [|reflexivity|reflexivity].
  cbn [app]. destruct rest as [|c t]; [reflexivity|]. destruct (H c t eq_refl) as [H1 H2].
  now rewrite (proj2 (N.eqb_neq _ _) H2), (proj2 (N.eqb_neq _ _) H1).
Qed.

Lemma parse_exponent_spec s x : parse_exponent s = Some x <-> exponent_text s x.
Proof.
  split.
  - destruct s as [|c t]; cbn [parse_exponent]; [intros H; injection H as <-; apply no_exponent|].
    destruct ((c =? 101) || (c =? 69))%bool eqn:Ec; [|discriminate].
    assert (Hm : [c] = lit "e" \/ [c] = lit "E").
    { apply orb_true_iff in Ec as [Ec|Ec]; apply N.eqb_eq in Ec; subst c; [now left|now right]. }
    assert (G : forall sign neg u, sign_text sign neg -> t = sign ++ u ->
      (let '(ds, rest) := span_digits u in
       match ds, rest with
       | _ :: _, [] => Some (if neg : bool then (- Z.of_N (digits_value ds))%Z else Z.of_N (digits_value ds))
       | _, _ => None end) = Some x -> exponent_text (c :: t) x).
    { intros sign neg u Hs -> H. destruct (span_digits u) as [ds rest] eqn:E. apply span_digits_spec in E as (-> & Hd & _).
      destruct ds as [|d ds]; [discriminate|]. destruct rest; [|discriminate]. injection H as <-.
      rewrite app_nil_r, digits_value_numeral by exact Hd. change (c :: sign ++ d :: ds) with ([c] ++ sign ++ d :: ds).
      apply (exponent [c] sign neg); [exact Hm|exact Hs|]. split; [discriminate|exact Hd]. }
    destruct t as [|d t'].
    + cbn. discriminate.
    + destruct (N.eqb_spec d 45) as [-> |H1].
      * apply (G (lit "-") true t'); [right; right; auto|reflexivity].
      * destruct (N.eqb_spec d 43) as [-> |H2].
        -- apply (G (lit "+") false t'); [right; left; auto|reflexivity].
        -- apply (G [] false (d :: t')); [left; auto|reflexivity].
  - intros [|mark sign neg ds Hm Hs [Hne Hd]]; [reflexivity|].
    assert (R : forall u, parse_exponent (mark ++ u) =
       let '(neg, v) := match u with
                       | d :: t' => if d =? 45 then (true, t') else if d =? 43 then (false, t') else (false, u)
                       | [] => (false, u) end in
       let '(ds, rest) := span_digits v in
       match ds, rest with
       | _ :: _, [] => Some (if neg : bool then (- Z.of_N (digits_value ds))%Z else Z.of_N (digits_value ds))
       | _, _ => None end).
    { intros u. destruct Hm as [-> | ->]; reflexivity. }
    rewrite R, (sign_text_split sign neg ds Hs).
    + rewrite <- (app_nil_r ds) at 1. rewrite (span_digits_app ds []) by (exact Hd || exact I).
      destruct ds as [|d ds]; [now destruct Hne|]. rewrite digits_value_numeral by exact Hd. reflexivity.
    + intros c t ->. inversion Hd as [|? ? Hc _]; subst. lia.
Qed.

Lemma exponent_no_digit ex x : exponent_text ex x -> no_digit_first ex.
Proof.
  intros [|mark sign neg ds [-> | ->] _ _]; cbn; [exact I| |]; unfold digit; lia.
Qed.

Definition dec_body (body : str) (n : N) (e : Z) : Prop :=
  exists ip dot fp ex x, body = ip ++ dot ++ fp ++ ex /\ Forall digit ip /\ Forall digit fp /\ ip ++ fp <> [] /\
    (dot = lit "." \/ (dot = [] /\ fp = [])) /\ exponent_text ex x /\
    n = numeral_value (ip ++ fp) /\ e = (x - Z.of_nat (List.length fp))%Z.

Lemma parse_decimal_spec neg body x :
  parse_decimal neg body = Some x <-> exists n e, dec_body body n e /\ x = f64_of_dec neg n e.
Proof.
  unfold parse_decimal. split.
  - destruct (span_digits body) as [ip r1] eqn:E1. apply span_digits_spec in E1 as (-> & Hip & Hr1).
    assert (G : forall dot fp r2, r1 = dot ++ fp ++ r2 -> Forall digit fp -> dot = lit "." \/ (dot = [] /\ fp = []) ->
      match ip ++ fp with
      | [] => None
      | c :: t => match parse_exponent r2 with
             | Some e => Some (f64_of_dec neg (digits_value (c :: t)) (e - Z.of_nat (List.length fp)))
             | None => None end end = Some x -> exists n e, dec_body (ip ++ r1) n e /\ x = f64_of_dec neg n e).
    { intros dot fp r2 -> Hfp Hdot H. assert (Hne : ip ++ fp <> []) by (intros E; rewrite E in H; discriminate).
      destruct (parse_exponent r2) as [z|] eqn:Ez; [|destruct (ip ++ fp); discriminate].
      apply parse_exponent_spec in Ez. exists (numeral_value (ip ++ fp)), (z - Z.of_nat (List.length fp))%Z. split.
      - exists ip, dot, fp, r2, z. repeat split; auto.
      - assert (Hf : Forall digit (ip ++ fp)) by (apply Forall_app; auto). destruct (ip ++ fp) as [|c l]; [now destruct Hne|].
        injection H as <-. now rewrite digits_value_numeral by exact Hf. }
    destruct r1 as [|c t].
    + apply (G [] [] []); auto.
    + destruct (N.eqb_spec c 46) as [-> |Hc].
      * destruct (span_digits t) as [fp r2] eqn:E2. apply span_digits_spec in E2 as (-> & Hfp & _).
        apply (G (lit ".") fp r2); auto.
      * apply (G [] [] (c :: t)); auto.
  - intros (n & e & (ip & dot & fp & ex & z & -> & Hip & Hfp & Hne & Hdot & Hex & -> & ->) & ->).
    pose proof (exponent_no_digit _ _ Hex) as Hnd.
    rewrite (span_digits_app ip).
    2:{ exact Hip. }
    2:{ destruct Hdot as [-> |[-> ->]]; [cbn; unfold digit; lia|exact Hnd]. }
    match goal with |- (let '(_, _) := ?m in _) = _ => assert (E : m = (fp, ex)) end.
    { destruct Hdot as [-> |[-> ->]].
      - change (lit "." ++ fp ++ ex) with (46 :: fp ++ ex). cbn iota. rewrite N.eqb_refl. now apply span_digits_app.
      - cbn [app]. destruct Hex as [|mark sign neg' ds [-> | ->] _ _]; reflexivity. }
    rewrite E. apply parse_exponent_spec in Hex. rewrite Hex.
    assert (Hf : Forall digit (ip ++ fp)) by (apply Forall_app; auto). destruct (ip ++ fp) as [|c l]; [now destruct Hne|].
    now rewrite digits_value_numeral by exact Hf.
Qed.

Lemma decimal_body s neg n e : decimal s neg n e <-> exists sign body, s = sign ++ body /\ sign_text sign neg /\ dec_body body n e.
Proof.
  split.
  - intros [sign ip dot fp ex x Hs Hsg Hip Hfp Hne Hd Hx Hn He]. exists sign, (ip ++ dot ++ fp ++ ex). split; [exact Hs|].
    split; [exact Hsg|]. exists ip, dot, fp, ex, x. auto 10.
  - intros (sign & body & -> & Hs & ip & dot & fp & ex & x & -> & H). destruct H as (H1 & H2 & H3 & H4 & H5 & H6 & H7).
    now apply decimal_intro with sign ip dot fp ex x.
Qed.

Lemma dec_body_first body n e c t : dec_body body n e -> body = c :: t -> digit c \/ c = 46.
Proof.
  intros (ip & dot & fp & ex & x & -> & Hip & Hfp & Hne & Hd & _) E.
  destruct ip as [|d ip].
  - destruct Hd as [-> |[-> ->]]; [injection E as <- _; now right|now destruct Hne].
  - injection E as <- _. left. now inversion Hip.
Qed.

Lemma to_lower_case s w : Forall (fun l => 97 <= l <= 122) w -> map to_lower s = w <-> in_any_case s w.
Proof.
  intros Hw. unfold in_any_case. revert s. induction Hw as [|l w Hl Hw IH]; intros s.
  - split; [destruct s; [constructor|discriminate]|intros H; now inversion H].
  - destruct s as [|c s]; [split; [discriminate|intros H; inversion H]|]. cbn [map]. split.
    + intros H. injection H as H1 H2. constructor; [|now apply IH]. unfold to_lower in H1.
      destruct ((65 <=? c) && (c <=? 90))%bool eqn:E; [|now left]. right. split; [exact Hl|]. lia.
    + intros H. inversion H as [|? ? ? ? Hc Hs]; subst. f_equal; [|now apply IH]. unfold to_lower.
      destruct ((65 <=? c) && (c <=? 90))%bool eqn:E.
      * apply andb_true_iff in E as [E1 E2]. apply N.leb_le in E1, E2. destruct Hc as [-> |[_ Hc]]; lia.
      * apply andb_false_iff in E. rewrite !N.leb_gt in E. destruct Hc as [-> |[_ Hc]]; [reflexivity|lia].
Qed.

Definition word_first (s : str) (neg : bool) (w : str) : Prop :=
  exists sign word, s = sign ++ word /\ sign_text sign neg /\ in_any_case word w.

Lemma in_any_case_first word l w c t : in_any_case word (l :: w) -> 97 <= l <= 122 -> word = c :: t -> 65 <= c.
Proof. intros H Hl ->. inversion H as [|? ? ? ? Hc _]; subst. destruct Hc as [-> |[_ ->]]; lia. Qed.

Lemma sign_decompose s : exists sign neg body, s = sign ++ body /\ sign_text sign neg /\
  (match s with
   | c :: t => if c =? 45 then (true, t) else if c =? 43 then (false, t) else (false, s)
   | [] => (false, s) end) = (neg, body) /\
  (sign = [] -> forall c t, body = c :: t -> c <> 43 /\ c <> 45).
Proof.
  destruct s as [|c t].
  - exists [], false, []. repeat split; [now left|discriminate|discriminate].
  - destruct (N.eqb_spec c 45) as [-> |H1].
    + exists (lit "-"), true, t. repeat split; [right; right; auto|discriminate|discriminate].
    + destruct (N.eqb_spec c 43) as [-> |H2].
      * exists (lit "+"), false, t. repeat split; [right; left; auto|discriminate|discriminate].
      * exists [], false, (c :: t). split; [reflexivity|]. split; [now left|]. split; [reflexivity|].
        intros _ c' t' E. injection E as <- _. auto.
Qed.

(** What [parse_f64] does, in terms of the grammar. *)
Lemma parse_f64_spec s x : parse_f64 s = Some x <->
  (exists neg n e, decimal s neg n e /\ x = f64_of_dec neg n e) \/
  (exists neg, (word_first s neg (lit "inf") \/ word_first s neg (lit "infinity")) /\ x = S754_infinity neg) \/
  (exists neg, word_first s neg (lit "nan") /\ x = S754_nan).
Proof.
  assert (Linf : Forall (fun l => 97 <= l <= 122) (lit "inf")) by (repeat constructor; cbv; discriminate).
  assert (Linfy : Forall (fun l => 97 <= l <= 122) (lit "infinity")) by (repeat constructor; cbv; discriminate).
  assert (Lnan : Forall (fun l => 97 <= l <= 122) (lit "nan")) by (repeat constructor; cbv; discriminate).
  destruct (sign_decompose s) as (sign & neg & body & Es & Hs & Em & Hf).
  unfold parse_f64. match goal with |- context [let '(_, _) := ?m in _] => replace m with (neg, body) by (symmetry; exact Em) end. clear Em.
  assert (W : forall neg' l w, 97 <= l <= 122 -> word_first s neg' (l :: w) -> neg' = neg /\ in_any_case body (l :: w)).
  { intros neg' l w Hl (sign' & word & E & Hs' & Hw).
    assert (H1 : forall c t, word = c :: t -> c <> 43 /\ c <> 45).
    { intros c t Ew. pose proof (in_any_case_first _ _ _ _ _ Hw Hl Ew). lia. }
    pose proof (sign_text_split sign' neg' word Hs' H1) as P. rewrite <- E, Es in P.
    assert (Hb : sign = [] -> forall c t, body = c :: t -> c <> 43 /\ c <> 45) by exact Hf.
    destruct Hs as [[-> ->]|[[-> ->]|[-> ->]]].
    - rewrite (sign_text_split [] false body) in P by (exact (Hf eq_refl) || now left). injection P as <- <-. auto.
    - cbn in P. injection P as <- <-. auto.
    - cbn in P. injection P as <- <-. auto. }
  assert (D : forall neg' n e, decimal s neg' n e -> neg' = neg /\ dec_body body n e).
  { intros neg' n e H. apply decimal_body in H as (sign' & body' & E & Hs' & Hw).
    assert (H1 : forall c t, body' = c :: t -> c <> 43 /\ c <> 45).
    { intros c t Ew. destruct (dec_body_first _ _ _ _ _ Hw Ew) as [Hc| ->]; unfold digit in *; lia. }
    pose proof (sign_text_split sign' neg' body' Hs' H1) as P. rewrite <- E, Es in P.
    destruct Hs as [[-> ->]|[[-> ->]|[-> ->]]].
    - rewrite (sign_text_split [] false body) in P by (exact (Hf eq_refl) || now left). injection P as <- <-. auto.
    - cbn in P. injection P as <- <-. auto.
    - cbn in P. injection P as <- <-. auto. }
  assert (X : forall l w n e, 97 <= l <= 122 -> in_any_case body (l :: w) -> dec_body body n e -> False).
  { intros l w n e Hl Hw Hd. destruct body as [|c t]; [inversion Hw|].
    pose proof (in_any_case_first _ _ _ _ _ Hw Hl eq_refl).
    destruct (dec_body_first _ _ _ _ _ Hd eq_refl) as [Hc| ->]; unfold digit in *; lia. }
  pose proof (to_lower_case body _ Linf) as T1. pose proof (to_lower_case body _ Linfy) as T2.
  pose proof (to_lower_case body _ Lnan) as T3.
  assert (Wb : forall w, in_any_case body w -> word_first s neg w) by (intros w Hw; exists sign, body; auto).
  destruct (str_eqb (map to_lower body) (lit "inf")) eqn:E1; [|destruct (str_eqb (map to_lower body) (lit "infinity")) eqn:E2;
    [|destruct (str_eqb (map to_lower body) (lit "nan")) eqn:E3]]; cbn [orb].
  - apply str_eqb_eq in E1. apply T1 in E1. split.
    + intros H. injection H as <-. right; left. exists neg. auto.
    + intros [(neg' & n & e & Hd & ->)|[(neg' & Hw & ->)|(neg' & Hw & ->)]].
      * apply D in Hd as [-> Hd]. exfalso. eapply X; [|exact E1|exact Hd]. cbv; split; discriminate.
      * assert (neg' = neg) as -> by (destruct Hw as [Hw|Hw]; eapply W in Hw; try apply Hw; cbv; split; discriminate). reflexivity.
      * apply W in Hw as [_ Hw]; [|cbv; split; discriminate]. apply T1 in E1. apply T3 in Hw. rewrite E1 in Hw. discriminate.
  - apply str_eqb_eq in E2. apply T2 in E2. split.
    + intros H. injection H as <-. right; left. exists neg. auto.
    + intros [(neg' & n & e & Hd & ->)|[(neg' & Hw & ->)|(neg' & Hw & ->)]].
      * apply D in Hd as [-> Hd]. exfalso. eapply X; [|exact E2|exact Hd]. cbv; split; discriminate.
      * assert (neg' = neg) as -> by (destruct Hw as [Hw|Hw]; eapply W in Hw; try apply Hw; cbv; split; discriminate). reflexivity.
      * apply W in Hw as [_ Hw]; [|cbv; split; discriminate]. apply T2 in E2. apply T3 in Hw. rewrite E2 in Hw. discriminate.
  - apply str_eqb_eq in E3. apply T3 in E3. split.
    + intros H. injection H as <-. right; right. exists neg. auto.
    + intros [(neg' & n & e & Hd & ->)|[(neg' & Hw & ->)|(neg' & Hw & ->)]].
      * apply D in Hd as [-> Hd]. exfalso. eapply X; [|exact E3|exact Hd]. cbv; split; discriminate.
      * exfalso. apply T3 in E3. destruct Hw as [Hw|Hw]; (apply W in Hw as [_ Hw]; [|cbv; split; discriminate]).
        -- apply T1 in Hw. rewrite E3 in Hw. discriminate.
        -- apply T2 in Hw. rewrite E3 in Hw. discriminate.
      * reflexivity.
  - rewrite parse_decimal_spec. split.
    + intros (n & e & Hd & ->). left. exists neg, n, e. split; [|reflexivity]. apply decimal_body. exists sign, body. auto.
    + intros [(neg' & n & e & Hd & ->)|[(neg' & Hw & ->)|(neg' & Hw & ->)]].
      * apply D in Hd as [-> Hd]. exists n, e. auto.
      * exfalso. destruct Hw as [Hw|Hw]; (apply W in Hw as [_ Hw]; [|cbv; split; discriminate]).
        -- apply T1, str_eqb_eq in Hw. congruence.
        -- apply T2, str_eqb_eq in Hw. congruence.
      * exfalso. apply W in Hw as [_ Hw]; [|cbv; split; discriminate]. apply T3, str_eqb_eq in Hw. congruence.
Qed.

Open Scope R_scope.

Lemma decimal_size_nonneg n e : 0 <= decimal_size n e.
Proof.
  unfold decimal_size. apply Rmult_le_pos; [apply IZR_le; lia|]. apply Rlt_le, powerRZ_lt. lra.
Qed.

Lemma rnd_signed neg v : rnd (signed neg v) = signed neg (rnd v).
Proof. destruct neg; [apply rnd_opp|reflexivity]. Qed.

Lemma rnd_nonneg v : 0 <= v -> 0 <= rnd v.
Proof. intros H. rewrite <- rnd_0. now apply rnd_le. Qed.

Lemma Rabs_signed neg v : 0 <= v -> Rabs (signed neg v) = v.
Proof. intros H. destruct neg; cbn; [rewrite Rabs_Ropp|]; now apply Rabs_pos_eq. Qed.

(** The conversion of a decimal number gives the nearest double, or infinity. *)
Lemma f64_of_dec_nearest neg n e : decimal_size n e < double_overflow ->
  nearest (signed neg (decimal_size n e)) (f64_of_dec neg n e) /\ negative (f64_of_dec neg n e) = neg.
Proof.
  intros H. pose proof (decimal_size_nonneg n e) as Hp. destruct (f64_of_dec_rounds neg n e) as (P & F & _).
  fold (decimal_size n e) in F. rewrite rnd_signed, Rabs_signed in F by now apply rnd_nonneg.
  destruct F as (E & Fi & Ne); [now apply rnd_overflow|]. split; [|exact Ne].
  apply nearest_rnd; auto. now rewrite rnd_signed.
Qed.

Lemma f64_of_dec_infinite neg n e : double_overflow <= decimal_size n e -> f64_of_dec neg n e = S754_infinity neg.
Proof.
  intros H. pose proof (decimal_size_nonneg n e) as Hp. destruct (f64_of_dec_rounds neg n e) as (_ & _ & O).
  apply O. fold (decimal_size n e). rewrite rnd_signed, Rabs_signed by now apply rnd_nonneg.
  destruct (Rle_or_lt (bpow radix2 1024) (rnd (decimal_size n e))) as [|C]; [assumption|].
  apply rnd_overflow in C; [|exact Hp]. lra.
Qed.

Lemma f64_of_dec_unique neg n e x : decimal_size n e < double_overflow ->
  nearest (signed neg (decimal_size n e)) x -> negative x = neg -> x = f64_of_dec neg n e.
Proof.
  intros H Hx Hn. pose proof (decimal_size_nonneg n e) as Hp. destruct (f64_of_dec_nearest neg n e H) as [Hy Ny].
  assert (B : Rabs (rnd (signed neg (decimal_size n e))) < bpow radix2 1024).
  { rewrite rnd_signed, Rabs_signed by now apply rnd_nonneg. now apply rnd_overflow. }
  pose proof (nearest_is_rnd _ _ Hx B) as Ex. pose proof (nearest_is_rnd _ _ Hy B) as Ey.
  destruct Hx as (Fx & Px & _), Hy as (Fy & Py & _). apply real_of_inj; auto; congruence.
Qed.

Theorem parse_f64_reads s x : parse_f64 s = Some x <-> reads_double s x.
Proof.
  rewrite parse_f64_spec. split.
  - intros [(neg & n & e & Hd & ->)|[(neg & Hw & ->)|(neg & Hw & ->)]].
    + destruct (Rlt_or_le (decimal_size n e) double_overflow) as [H|H].
      * destruct (f64_of_dec_nearest neg n e H). now apply reads_decimal with neg n e.
      * rewrite f64_of_dec_infinite by exact H. now apply reads_overflow with n e.
    + assert (exists sign word, s = sign ++ word /\ sign_text sign neg /\ (in_any_case word (lit "inf") \/ in_any_case word (lit "infinity")))
        as (sign & word & E & Hs & Hi).
      { destruct Hw as [(a & b & H1 & H2 & H3)|(a & b & H1 & H2 & H3)]; exists a, b; auto. }
      now apply reads_infinity with sign word.
    + destruct Hw as (a & b & H1 & H2 & H3). now apply reads_nan with a neg b.
  - intros [neg n e y Hd H Hy Hn|neg n e Hd H|sign neg word E Hs Hw|sign neg word E Hs Hw].
    + left. exists neg, n, e. split; [exact Hd|]. now apply f64_of_dec_unique.
    + left. exists neg, n, e. split; [exact Hd|]. now rewrite f64_of_dec_infinite.
    + right; left. exists neg. split; [|reflexivity]. destruct Hw; [left|right]; exists sign, word; auto.
    + right; right. exists neg. split; [|reflexivity]. exists sign, word. auto.
Qed.
