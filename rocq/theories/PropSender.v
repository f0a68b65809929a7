(** C111: what a receiver writes is read back. *)
From Coq Require Import List NArith ZArith Bool String Lia Reals Lra Floats.SpecFloat.
From Flocq Require Import Core.
From Verif Require Import Base Str F64 Chrono Types Util Gnss Parser
  SpecText SpecResult SpecTime SpecReal SpecFields SpecWriting SpecSender StrFacts FrontFacts CallFacts
  VdmFacts FloatFacts DecimalFacts FieldFacts PropFront PropFields PropWriting PropMeasure PropSharp ResultFacts.
Import ListNotations.
Open Scope N_scope.

Local Opaque parse_f64 f64_div f64_mul f64_of_Z f64_of_dec.

(** ** Digits *)

Lemma digits_of_length w n : List.length (digits_of w n) = w.
Proof. revert n. induction w as [|w IH]; intros n; [reflexivity|]. cbn [digits_of]. rewrite app_length, IH. cbn. lia. Qed.

Lemma digits_of_digits w n : Forall digit (digits_of w n).
Proof.
  revert n. induction w as [|w IH]; intros n; [constructor|]. cbn [digits_of]. apply Forall_app. split; [apply IH|].
  constructor; [|constructor]. unfold digit. pose proof (N.mod_lt n 10). lia.
Qed.

Lemma digits_of_value w n : numeral_value (digits_of w n) = n mod 10 ^ N.of_nat w.
Proof.
  revert n. induction w as [|w IH]; intros n; [cbn [digits_of]; change (10 ^ N.of_nat 0) with 1; now rewrite N.mod_1_r|].
  cbn [digits_of]. rewrite numeral_value_snoc, IH, Nat2N.inj_succ, N.pow_succ_r'.
  rewrite (N.mod_mul_r n 10 (10 ^ N.of_nat w)) by (try apply N.pow_nonzero; lia). lia.
Qed.

Lemma digits_of_small w n : n < 10 ^ N.of_nat w -> numeral_value (digits_of w n) = n.
Proof. intros H. rewrite digits_of_value. now apply N.mod_small. Qed.

Lemma digits_of_numeral w n : (1 <= w)%nat -> is_numeral (digits_of w n).
Proof.
  intros H. split; [|apply digits_of_digits]. intros E. pose proof (digits_of_length w n) as L. rewrite E in L. cbn in L. lia.
Qed.

Lemma digits_of_denotes w n : (1 <= w)%nat -> n < 10 ^ N.of_nat w -> denotes (digits_of w n) n.
Proof. intros H L. exists (digits_of w n). split; [now left|]. split; [now apply digits_of_numeral|now apply digits_of_small]. Qed.

Lemma digits_plain l : Forall digit l -> plain l.
Proof. intros H X. rewrite List.Forall_forall in H. apply H in X. unfold digit in X. lia. Qed.

Lemma digits_of_plain w n : plain (digits_of w n).
Proof. apply digits_plain, digits_of_digits. Qed.

Lemma unsigned_value before after n : n < 10 ^ N.of_nat (before + after) ->
  numeral_value (digits_of before (n / 10 ^ N.of_nat after) ++ digits_of after n) = n.
Proof.
  intros H. rewrite numeral_value_app', digits_of_length, digits_of_value, digits_of_value.
  assert (Q : 10 ^ N.of_nat after <> 0) by (apply N.pow_nonzero; lia).
  rewrite (N.mod_small (n / _)).
  - rewrite N.mul_comm. symmetry. now apply N.div_mod.
  - apply N.div_lt_upper_bound; [exact Q|]. rewrite <- N.pow_add_r, <- Nat2N.inj_add. now rewrite Nat.add_comm.
Qed.

Lemma unsigned_plain before after n : plain (unsigned_text before after n).
Proof.
  unfold unsigned_text. apply plain_app; [apply digits_of_plain|]. apply plain_app; [now apply plain_lit_dec|apply digits_of_plain].
Qed.

(** ** Decimal numbers *)

Open Scope R_scope.

Lemma pow10_IZR k : powerRZ 10 (Z.of_nat k) = IZR (10 ^ Z.of_nat k).
Proof. rewrite <- pow_powerRZ. now rewrite pow_IZR. Qed.

Lemma size_of_units n k : decimal_size n (- Z.of_nat k) = IZR (Z.of_N n) / IZR (10 ^ Z.of_nat k).
Proof. unfold decimal_size. rewrite powerRZ_neg'. now rewrite pow10_IZR. Qed.

Lemma figure_error before after n x (sg : bool) : (before + after <= 15)%nat -> (n < 10 ^ N.of_nat (before + after))%N ->
  nearest (if sg then - decimal_size n (- Z.of_nat after) else decimal_size n (- Z.of_nat after)) x ->
  Rabs (real_of x * IZR (10 ^ Z.of_nat after) - IZR (if sg then - Z.of_N n else Z.of_N n)) < / 2.
Proof.
  intros L H X. rewrite size_of_units in X.
  set (u := (10 ^ Z.of_nat after)%Z) in *. assert (U : (0 < u)%Z) by (apply Z.pow_pos_nonneg; lia).
  assert (UR : 0 < IZR u) by now apply IZR_lt.
  set (b := (10 ^ Z.of_nat before)%Z). assert (B : (0 < b)%Z) by (apply Z.pow_pos_nonneg; lia).
  set (k := (Z.log2 b + 1)%Z). pose proof (Z.log2_spec b B) as [S1 S2]. pose proof (Z.log2_nonneg b) as S0.
  assert (UB : (b * u <= 10 ^ 15)%Z).
  { unfold u, b. rewrite <- Z.pow_add_r by lia. apply Z.pow_le_mono_r; lia. }
  assert (Hn : (Z.of_N n < b * u)%Z).
  { unfold u, b. rewrite <- Z.pow_add_r by lia. rewrite <- Nat2Z.inj_add. apply N2Z.inj_lt in H. rewrite N2Z.inj_pow in H.
    now rewrite nat_N_Z in H. }
  assert (Kb : (k <= 51)%Z).
  { unfold k. assert (Z.log2 b <= Z.log2 (10 ^ 15))%Z by (apply Z.log2_le_mono; nia). change (Z.log2 (10 ^ 15)) with 49%Z in H0. lia. }
  set (v := if sg then - (IZR (Z.of_N n) / IZR u) else IZR (Z.of_N n) / IZR u) in *.
  assert (V : Rabs v <= bpow radix2 k).
  { assert (E : Rabs v = IZR (Z.of_N n) / IZR u).
    { assert (0 <= IZR (Z.of_N n) / IZR u).
      { apply Rmult_le_pos; [apply IZR_le; lia|]. apply Rlt_le. now apply Rinv_0_lt_compat. }
      unfold v. destruct sg; [rewrite Rabs_Ropp|]; now apply Rabs_pos_eq. }
    rewrite E. apply Rle_trans with (IZR b).
    - apply (Rmult_le_reg_r (IZR u)); [exact UR|]. unfold Rdiv. rewrite Rmult_assoc, Rinv_l by lra. rewrite Rmult_1_r, <- mult_IZR.
      apply IZR_le. lia.
    - replace (bpow radix2 k) with (IZR (2 ^ k)) by (apply (IZR_Zpower radix2); lia). apply IZR_le. unfold k. apply Z.lt_le_incl.
      rewrite Z.add_1_r. exact S2. }
  destruct (nearest_value k v x X ltac:(lia) V) as [_ Er].
  replace (IZR (if sg then - Z.of_N n else Z.of_N n)) with (v * IZR u).
  2:{ unfold v. destruct sg; rewrite ?opp_IZR; field; lra. }
  rewrite <- Rmult_minus_distr_r, Rabs_mult, (Rabs_pos_eq (IZR u)) by lra.
  apply Rle_lt_trans with (bpow radix2 (k - 53) * IZR u); [now apply Rmult_le_compat_r; lra|].
  replace (k - 53)%Z with (Z.log2 b + (-52))%Z by (unfold k; lia). rewrite bpow_plus.
  replace (bpow radix2 (Z.log2 b)) with (IZR (2 ^ Z.log2 b)) by (apply (IZR_Zpower radix2); lia).
  assert (P : IZR (2 ^ Z.log2 b) * IZR u <= IZR (10 ^ 15)).
  { rewrite <- mult_IZR. apply IZR_le. nia. }
  change (bpow radix2 (-52)) with (/ 4503599627370496). change (10 ^ 15)%Z with 1000000000000000%Z in P. lra.
Qed.

Lemma unsigned_decimal before after n : (1 <= before)%nat -> (n < 10 ^ N.of_nat (before + after))%N ->
  decimal (unsigned_text before after n) false n (- Z.of_nat after).
Proof.
  intros B H. apply decimal_intro with (sign := []) (ip := digits_of before (n / 10 ^ N.of_nat after)) (dot := lit ".")
    (fp := digits_of after n) (ex := []) (x := 0%Z).
  - unfold unsigned_text. now rewrite app_nil_r.
  - now left.
  - apply digits_of_digits.
  - apply digits_of_digits.
  - intros E. apply app_eq_nil in E as [E _]. now apply (digits_of_numeral before (n / 10 ^ N.of_nat after) B).
  - now left.
  - constructor.
  - symmetry. now apply unsigned_value.
  - rewrite digits_of_length. lia.
Qed.

Lemma figure_decimal x : fits x ->
  decimal (figure_text x) (figure_units x <? 0)%Z (Z.abs_N (figure_units x)) (- Z.of_nat (digits_after x)).
Proof.
  intros (B & L & H). pose proof (unsigned_decimal _ _ _ B H) as D. unfold figure_text.
  destruct (figure_units x <? 0)%Z; [|exact D].
  destruct D as [sign ip dot fp ex e E S F1 F2 N1 N2 X En Ee].
  assert (sign = []) as ->.
  { destruct S as [[-> _]|[[-> _]|[-> S]]]; [reflexivity| |discriminate S].
    unfold unsigned_text in E. destruct (digits_of (digits_before x) _) as [|c l] eqn:Ed.
    - now apply (digits_of_numeral (digits_before x) (Z.abs_N (figure_units x) / 10 ^ N.of_nat (digits_after x)) B) in Ed.
    - pose proof (digits_of_digits (digits_before x) (Z.abs_N (figure_units x) / 10 ^ N.of_nat (digits_after x))) as G.
      rewrite Ed in G. inversion G as [|? ? G1 _]; subst. injection E as Ec _. unfold digit in G1. subst c. lia. }
  eapply decimal_intro with (sign := lit "-") (ip := ip) (dot := dot) (fp := fp) (ex := ex) (x := e); eauto.
  - now rewrite E.
  - right. right. auto.
Qed.

Lemma small_size n e : (e <= 0)%Z -> (n < 10 ^ 15)%N -> decimal_size n e < double_overflow.
Proof.
  intros He Hn. unfold decimal_size, double_overflow.
  assert (P : 0 < powerRZ 10 e <= 1).
  { split; [apply powerRZ_lt; lra|]. replace e with (- Z.of_nat (Z.to_nat (- e)))%Z by lia.
    rewrite powerRZ_neg'. rewrite pow10_IZR. rewrite <- Rinv_1. apply Rinv_le; [lra|]. apply IZR_le.
    pose proof (Z.pow_pos_nonneg 10 (Z.of_nat (Z.to_nat (- e))) ltac:(lia) ltac:(lia)). lia. }
  assert (Q : 0 <= IZR (Z.of_N n) <= IZR (10 ^ 15)) by (split; apply IZR_le; lia).
  apply Rle_lt_trans with (IZR (10 ^ 15)); [nra|].
  replace (powerRZ 2 1024) with (powerRZ 2 970 * powerRZ 2 54) by (rewrite <- powerRZ_add by lra; reflexivity).
  assert (1 <= powerRZ 2 970) by (change 970%Z with (Z.of_nat 970); rewrite <- pow_powerRZ; apply pow_R1_Rle; lra).
  assert (powerRZ 2 54 = IZR (2 ^ 54)) as -> by (change 54%Z with (Z.of_nat 54); rewrite <- pow_powerRZ; now rewrite pow_IZR).
  change (10 ^ 15)%Z with 1000000000000000%Z. change (2 ^ 54)%Z with 18014398509481984%Z.
  set (y := powerRZ 2 970) in *. clearbody y. nra.
Qed.

Lemma decimal_read f neg n e : decimal f neg n e -> decimal_size n e < double_overflow ->
  exists x, f <> [] /\ reads_double f x /\ finite x /\ negative x = neg /\
    nearest (if neg then - decimal_size n e else decimal_size n e) x.
Proof.
  intros D S. destruct (f64_of_dec_nearest neg n e S) as [N1 N2]. unfold signed in N1.
  exists (f64_of_dec neg n e). split.
  - intros ->. destruct D as [sign ip dot fp ex x E _ _ _ Ne _ _ _ _]. symmetry in E.
    apply app_eq_nil in E as [_ E]. apply app_eq_nil in E as [-> E]. apply app_eq_nil in E as [_ E]. apply app_eq_nil in E as [-> _]. now destruct Ne.
  - split; [eapply reads_decimal; eauto|]. split; [apply N1|]. split; [exact N2|exact N1].
Qed.

Lemma fits_15 n before after : (before + after <= 15)%nat -> (n < 10 ^ N.of_nat (before + after))%N -> (n < 10 ^ 15)%N.
Proof. intros L H. eapply N.lt_le_trans; [exact H|]. apply N.pow_le_mono_r; lia. Qed.

Lemma figure_read o : every fits o -> exists v, field_value reads_double (known figure_text o) v /\ both gives_figure o v.
Proof.
  destruct o as [x|]; cbn [every known]; [|exists None; now split; [constructor|]].
  intros Hx. pose proof Hx as (B & L & H).
  destruct (decimal_read _ _ _ _ (figure_decimal x Hx)) as (y & Ne & R & F & _ & N).
  { apply small_size; [lia|]. eapply fits_15; eassumption. }
  exists (Some y). split; [now constructor|]. split; [exact F|].
  pose proof (figure_error _ _ _ _ _ L H N) as G. destruct (Z.ltb_spec (figure_units x) 0).
  - replace (- Z.of_N (Z.abs_N (figure_units x)))%Z with (figure_units x) in G by lia. exact G.
  - replace (Z.of_N (Z.abs_N (figure_units x)))%Z with (figure_units x) in G by lia. exact G.
Qed.

Lemma figure_read_lenient o : every fits o -> exists v, lenient_value reads_double (known figure_text o) v /\ both gives_figure o v.
Proof. intros H. destruct (figure_read o H) as (v & F & G). exists v. split; [now apply field_lenient|exact G]. Qed.

(** Magnetic variation. *)
Lemma variation_read o : every fits o -> exists v,
  field_value (variation (known (fun a => hemisphere (lit "E") (lit "W") (figure_units a)) o))
    (known (fun a => unsigned_text (digits_before a) (digits_after a) (Z.abs_N (figure_units a))) o) v /\ both gives_figure o v.
Proof.
  destruct o as [x|]; cbn [every known]; [|exists None; now split; [constructor|]].
  intros Hx. pose proof Hx as (B & L & H).
  destruct (decimal_read _ _ _ _ (unsigned_decimal _ _ _ B H)) as (y & Ne & R & F & _ & N).
  { apply small_size; [lia|]. eapply fits_15; eassumption. }
  pose proof (figure_error _ _ _ _ false L H N) as G.
  exists (Some (if (figure_units x <? 0)%Z then f64_neg y else y)). split.
  - constructor; [exact Ne|]. exists y. split; [exact R|]. unfold hemisphere. destruct (figure_units x <? 0)%Z; auto.
  - unfold both, gives_figure, gives. destruct (Z.ltb_spec (figure_units x) 0).
    + split; [now apply f64_neg_finite|]. rewrite f64_neg_real. rewrite <- Rabs_Ropp. rewrite Ropp_minus_distr.
      replace (IZR (figure_units x)) with (- IZR (Z.of_N (Z.abs_N (figure_units x)))) by (rewrite <- opp_IZR; f_equal; lia).
      match goal with |- Rabs ?a < _ => match type of G with Rabs ?b < _ => replace a with b by ring end end. exact G.
    + split; [exact F|]. replace (Z.of_N (Z.abs_N (figure_units x)))%Z with (figure_units x) in G by lia. exact G.
Qed.

(** ** Coordinates *)

Lemma units_pos x : (0 < units_per_degree x)%Z.
Proof. unfold units_per_degree. pose proof (Z.pow_pos_nonneg 10 (Z.of_nat (minute_decimals x))). lia. Qed.

Lemma place_shape n x : (n <= 3)%nat -> (1 <= minute_decimals x)%nat ->
  (Z.abs_N (place_units x) / Z.to_N (units_per_degree x) < 10 ^ N.of_nat n)%N ->
  degrees_minutes n (place_text n x) (Z.abs_N (place_units x) / Z.to_N (units_per_degree x))%N
    (decimal_size (Z.abs_N (place_units x) mod Z.to_N (units_per_degree x)) (- Z.of_nat (minute_decimals x))).
Proof.
  intros Hn Hk Hd. set (a := Z.abs_N (place_units x)) in *. set (u := Z.to_N (units_per_degree x)) in *.
  set (k := minute_decimals x) in *. pose proof (units_pos x) as U0.
  assert (Eu : u = (60 * 10 ^ N.of_nat k)%N).
  { unfold u, units_per_degree. rewrite Z2N.inj_mul by (try apply Z.pow_nonneg; lia). rewrite Z2N.inj_pow by lia. fold k.
    replace (Z.to_N (Z.of_nat k)) with (N.of_nat k) by lia. reflexivity. }
  assert (Hm : (a mod u < 10 ^ N.of_nat (2 + k))%N).
  { eapply N.lt_le_trans; [apply N.mod_lt; lia|]. rewrite Eu, Nat2N.inj_add, N.pow_add_r. change (10 ^ N.of_nat 2)%N with 100%N. nia. }
  eapply degrees_minutes_intro with (dd := digits_of n (a / u)) (mm := digits_of 2 (a mod u / 10 ^ N.of_nat k))
    (frac := digits_of k (a mod u)) (rest := []).
  - unfold place_text, unsigned_text. cbv zeta. fold a u k. now rewrite app_nil_r.
  - apply digits_of_digits.
  - apply digits_of_digits.
  - apply digits_of_digits.
  - apply digits_of_length.
  - apply digits_of_length.
  - apply digits_of_numeral. exact Hk.
  - exact Logic.I.
  - symmetry. now apply digits_of_small.
  - rewrite unsigned_value by exact Hm. now rewrite digits_of_length.
Qed.

Lemma place_read n degs plus minus o : (n = 2 \/ n = 3)%nat -> (0 <= degs < 10 ^ Z.of_nat n)%Z -> plus <> minus ->
  every (within degs) o -> exists v,
  field_value (angle n minus (known (fun a => hemisphere plus minus (place_units a)) o)) (known (place_text n) o) v /\
  both gives_place o v.
Proof.
  intros Hn Hdegs Hpm. destruct o as [x|]; cbn [every known]; [|exists None; now split; [constructor|]].
  intros (Hk & Hz). pose proof (units_pos x) as U0.
  set (a := Z.abs_N (place_units x)). set (u := Z.to_N (units_per_degree x)).
  assert (Hd : (a / u < 10 ^ N.of_nat n)%N).
  { apply N.div_lt_upper_bound; [lia|]. apply N2Z.inj_lt. rewrite N2Z.inj_mul, N2Z.inj_pow, nat_N_Z.
    replace (Z.of_N a) with (Z.abs (place_units x)) by lia. replace (Z.of_N u) with (units_per_degree x) by lia.
    change (Z.of_N 10) with 10%Z. nia. }
  pose proof (place_shape n x ltac:(lia) ltac:(lia) Hd) as D. fold a u in D.
  destruct (degrees_minutes_bound n _ _ _ ltac:(lia) D) as [B1 B2].
  destruct (angle_value _ _ _ B1 B2) as (N1 & N2 & N3 & S).
  set (q := f64_div _ _) in N2, N3. set (y := f64_add _ _) in N3, S. set (m := f64_of_dec _ _ _) in N1, N2.
  set (h := hemisphere plus minus (place_units x)).
  exists (Some (if str_eqb h minus then f64_neg y else y)). split.
  - constructor.
    + unfold place_text. cbv zeta. intros E. apply app_eq_nil in E as [E _]. revert E. apply digits_of_numeral. lia.
    + exists (a / u)%N, (decimal_size (a mod u) (- Z.of_nat (minute_decimals x))), m, q, y.
      refine (conj D (conj N1 (conj N2 (conj N3 (conj S _))))). destruct (str_eqb_spec h minus); split; tauto.
  - pose proof (angle_error _ _ B1 B2) as ER. rewrite <- (angle_steps _ _ m q y B1 B2 N1 N2 N3) in ER.
    rewrite size_of_units in ER.
    assert (UR : 0 < IZR (units_per_degree x)) by now apply IZR_lt.
    assert (E : IZR (Z.of_N (a / u)) + IZR (Z.of_N (a mod u)) / IZR (10 ^ Z.of_nat (minute_decimals x)) / 60 =
                IZR (Z.of_N a) / IZR (units_per_degree x)).
    { rewrite (N.div_mod' a u) at 3. rewrite N2Z.inj_add, N2Z.inj_mul, plus_IZR, mult_IZR.
      replace (Z.of_N u) with (units_per_degree x) by lia. unfold units_per_degree in UR |- *. rewrite mult_IZR in UR |- *.
      field. intros X. rewrite X in UR. lra. }
    rewrite E in ER.
    assert (G : Rabs (real_of y * IZR (units_per_degree x) - IZR (Z.of_N a)) < / 2).
    { replace (real_of y * IZR (units_per_degree x) - IZR (Z.of_N a)) with
        ((real_of y - IZR (Z.of_N a) / IZR (units_per_degree x)) * IZR (units_per_degree x)) by (field; lra).
      rewrite Rabs_mult, (Rabs_pos_eq (IZR (units_per_degree x))) by lra.
      assert (W : IZR (units_per_degree x) <= 60000000000).
      { apply IZR_le. unfold units_per_degree.
        pose proof (Z.pow_le_mono_r 10 (Z.of_nat (minute_decimals x)) 9 ltac:(lia) ltac:(lia)). change (10 ^ 9)%Z with 1000000000%Z in H. lia. }
      apply Rle_lt_trans with (/ 10 ^ 12 * 60000000000); [|lra].
      apply Rmult_le_compat; [apply Rabs_pos|lra|exact ER|exact W]. }
    unfold both, gives_place, gives. unfold h, hemisphere. destruct (Z.ltb_spec (place_units x) 0).
    + rewrite str_eqb_refl. split; [apply f64_neg_finite, N3|]. rewrite f64_neg_real. rewrite <- Rabs_Ropp, Ropp_minus_distr.
      replace (IZR (place_units x)) with (- IZR (Z.of_N a)) by (rewrite <- opp_IZR; f_equal; lia).
      match goal with |- Rabs ?a < _ => match type of G with Rabs ?b < _ => replace a with b by ring end end. exact G.
    + destruct (str_eqb_spec plus minus); [contradiction|]. split; [apply N3|].
      replace (place_units x) with (Z.of_N a) by lia. exact G.
Qed.

Open Scope N_scope.

(** ** The rest *)

Lemma two_digits n : n < 100 -> exists a b, digits_of 2 n = [a; b] /\ digit a /\ digit b /\ n = 10 * (a - 48) + (b - 48).
Proof.
  intros H. pose proof (digits_of_length 2 n) as L. pose proof (digits_of_digits 2 n) as D. pose proof (digits_of_small 2 n H) as V.
  destruct (digits_of 2 n) as [|a [|b [|]]]; try discriminate L. exists a, b. apply Forall_cons_iff in D as [Da D]. apply Forall_cons_iff in D as [Db _].
  split; [reflexivity|]. split; [exact Da|]. split; [exact Db|]. rewrite <- V at 1. unfold numeral_value. cbn [fold_left]. lia.
Qed.

Lemma six_written a b c rest : a < 100 -> b < 100 -> c < 100 ->
  six_digits (digits_of 2 a ++ digits_of 2 b ++ digits_of 2 c ++ rest) a b c.
Proof.
  intros A B C. destruct (two_digits a A) as (a1 & a2 & -> & Da1 & Da2 & Ea). destruct (two_digits b B) as (b1 & b2 & -> & Db1 & Db2 & Eb).
  destruct (two_digits c C) as (c1 & c2 & -> & Dc1 & Dc2 & Ec). exists a1, a2, b1, b2, c1, c2, rest.
  split; [reflexivity|]. split; [|auto].
  repeat (apply Forall_cons; [assumption|]). apply Forall_nil.
Qed.

Lemma clock_read now h m s cs : valid_time h m s ->
  time_stamp now (clock_text h m s cs) (Some (today now h m s)).
Proof.
  intros V. apply time_stamp_some; [|exact V]. apply six_digits_time. unfold clock_text. apply six_written; destruct V; lia.
Qed.

Lemma number_read w max o : (1 <= w)%nat -> every (fun n => n < 10 ^ N.of_nat w /\ n <= max) o ->
  field_value (number_text max) (known (digits_of w) o) o.
Proof.
  intros Hw. destruct o as [n|]; cbn [every known]; [|now constructor]. intros [H M].
  constructor; [now apply digits_of_numeral|]. split; [now apply digits_of_denotes|exact M].
Qed.

Lemma written_gnss tt fff fields : utf8_bytes tt = 2%nat -> plain tt -> plain fff -> fields <> [] -> Forall plain fields ->
  gnss_with (written_sentence tt fff fields) tt fff fields.
Proof.
  intros Ht Hp Hf Hn HF. split; [|auto]. unfold written_sentence. cbv zeta.
  eexists. eexists. split; [right; split; [reflexivity|apply nmea_checksum_no_star]|]. split; [now right|].
  split; [discriminate|]. split; [|reflexivity]. constructor; [|exact HF].
  apply plain_app; [now apply plain_lit_dec|]. now apply plain_app.
Qed.

(** The characters of what is written. *)
Ltac plain_text :=
  repeat first
    [ assumption | apply digits_of_plain | apply unsigned_plain | now apply plain_lit_dec | apply plain_app
    | match goal with |- plain (if ?b then _ else _) => destruct b end
    | match goal with |- plain (known _ ?o) => destruct o; cbn [known] end
    | match goal with |- plain (match ?o with _ => _ end) => destruct o end
    | progress unfold figure_text, place_text, clock_text, date_text, hemisphere, satellite_text, mode_letter ].

Lemma mode_read o : every readable_mode o -> lenient_value (word faa_modes) (known mode_letter o) o.
Proof.
  destruct o as [[]|]; cbn [every known]; intros H; try (now destruct H); try (constructor; [discriminate|cbn; tauto]). now constructor; left.
Qed.

Lemma status_read (b : bool) : word statuses (if b then lit "A" else lit "V") b.
Proof. destruct b; cbn; auto. Qed.

Lemma status_not_empty (b : bool) (x y : str) : x <> [] -> y <> [] -> (if b then x else y) <> [].
Proof. now destruct b. Qed.

Lemma quality_read q : q <= 8 ->
  field_value (number_text 255) (digits_of 1 q) (Some q) /\ nth_error qualities (N.to_nat q) = Some (quality (Some q)).
Proof.
  intros H. split.
  - apply (number_read 1 255 (Some q)); [lia|]. cbn. lia.
  - unfold quality. apply nth_error_nth'. cbn. lia.
Qed.

Lemma place_latitude o : every (within 90) o -> exists v,
  field_value (latitude_text (known (fun a => hemisphere (lit "N") (lit "S") (place_units a)) o)) (known (place_text 2) o) v /\
  both gives_place o v.
Proof. apply place_read; [now left|cbn; lia|discriminate]. Qed.

Lemma place_longitude o : every (within 180) o -> exists v,
  field_value (longitude_text (known (fun a => hemisphere (lit "E") (lit "W") (place_units a)) o)) (known (place_text 3) o) v /\
  both gives_place o v.
Proof. apply place_read; [now right|cbn; lia|discriminate]. Qed.

(** ** C111 *)

(** A GGA sentence written by a receiver is accepted; its time, position, numbers and decimals are read back. *)
Theorem c111_gga ovf now tt nav x p :
  utf8_bytes tt = 2%nat -> plain tt -> names_system tt nav -> clock now -> gga_sendable x ->
  exists d, parse_sentence ovf now (written_sentence tt (lit "GGA") (gga_written x)) p = (Ok (PsGga d), p) /\
    gga_read_back now nav x d.
Proof.
  intros Ht Hp Hn Hc (V & La & Lo & Q & Sa & F1 & F2 & F3 & F4 & St).
  assert (W : gnss_with (written_sentence tt (lit "GGA") (gga_written x)) tt (lit "GGA") (gga_written x)).
  { apply written_gnss; [assumption|assumption|now apply plain_lit_dec|discriminate|]. unfold gga_written. repeat constructor; plain_text. }
  destruct (c39_gga ovf now _ tt nav _ p W Hn Hc) as (Es & Hok & _).
  destruct (place_latitude _ La) as (la & La1 & La2). destruct (place_longitude _ Lo) as (lo & Lo1 & Lo2).
  destruct (quality_read _ Q) as (Q1 & Q2).
  destruct (figure_read _ F1) as (f1 & F1a & F1b). destruct (figure_read _ F2) as (f2 & F2a & F2b).
  destruct (figure_read _ F3) as (f3 & F3a & F3b). destruct (figure_read _ F4) as (f4 & F4a & F4b).
  pose (d := {| gga_source := nav; gga_timestamp := Some (today now (sg_hour x) (sg_minute x) (sg_second x));
                gga_latitude := la; gga_longitude := lo; gga_quality := quality (Some (sg_quality x));
                gga_satellite_count := sg_satellites x; gga_hdop := f1; gga_altitude := f2;
                gga_geoid_separation := f3; gga_age_of_dgps := f4; gga_ref_station_id := sg_station x |}).
  exists d. split.
  - rewrite (surjective_pairing (parse_sentence _ _ _ _)), Es. f_equal. apply Hok. exists d. split; [reflexivity|].
    unfold gga_report, d, fld, gga_written. cbn [gga_source gga_timestamp gga_latitude gga_longitude gga_quality gga_satellite_count
      gga_hdop gga_altitude gga_geoid_separation gga_age_of_dgps gga_ref_station_id nth].
    refine (conj eq_refl (conj _ (conj La1 (conj Lo1 (conj _ (conj _ (conj F1a (conj F2a (conj F3a (conj F4a _)))))))))).
    + now apply clock_read.
    + exists (Some (sg_quality x)). auto.
    + apply number_read; [lia|]. destruct (sg_satellites x); cbn in *; lia.
    + apply number_read; [lia|]. destruct (sg_station x); cbn in *; lia.
  - unfold gga_read_back, d. cbn [gga_source gga_timestamp gga_latitude gga_longitude gga_quality gga_satellite_count
      gga_hdop gga_altitude gga_geoid_separation gga_age_of_dgps gga_ref_station_id]. unfold today. auto 20.
Qed.
Print Assumptions c111_gga.

Lemma first_pair a b c : firstn 2 (skipn 0 (digits_of 2 a ++ b ++ c)) = digits_of 2 a.
Proof. pose proof (digits_of_length 2 a) as L. destruct (digits_of 2 a) as [|u [|v [|]]]; try discriminate L. reflexivity. Qed.
Lemma second_pair a b c : firstn 2 (skipn 2 (digits_of 2 a ++ digits_of 2 b ++ c)) = digits_of 2 b.
Proof.
  pose proof (digits_of_length 2 a) as L. destruct (digits_of 2 a) as [|u [|v [|]]]; try discriminate L.
  pose proof (digits_of_length 2 b) as L'. destruct (digits_of 2 b) as [|u' [|v' [|]]]; try discriminate L'. reflexivity.
Qed.
Lemma third_pair a b c e : firstn 2 (skipn 4 (digits_of 2 a ++ digits_of 2 b ++ digits_of 2 c ++ e)) = digits_of 2 c.
Proof.
  pose proof (digits_of_length 2 a) as L. destruct (digits_of 2 a) as [|u [|v [|]]]; try discriminate L.
  pose proof (digits_of_length 2 b) as L'. destruct (digits_of 2 b) as [|u' [|v' [|]]]; try discriminate L'.
  pose proof (digits_of_length 2 c) as L2. destruct (digits_of 2 c) as [|u2 [|v2 [|]]]; try discriminate L2. reflexivity.
Qed.

(** The same for RMC, with the date, the status and the magnetic variation. *)
Theorem c111_rmc ovf now tt nav x p :
  utf8_bytes tt = 2%nat -> plain tt -> names_system tt nav -> (0 <= dt_year now <= 262000)%Z -> rmc_sendable now x ->
  exists d, parse_sentence ovf now (written_sentence tt (lit "RMC") (rmc_written x)) p = (Ok (PsRmc d), p) /\
    rmc_read_back now nav x d.
Proof.
  intros Ht Hp Hn Hc (V & Y & D & La & Lo & F1 & F2 & F3 & Hm).
  assert (W : gnss_with (written_sentence tt (lit "RMC") (rmc_written x)) tt (lit "RMC") (rmc_written x)).
  { apply written_gnss; [assumption|assumption|now apply plain_lit_dec|discriminate|]. unfold rmc_written. repeat constructor; plain_text. }
  destruct (c40_rmc ovf now _ tt nav _ p W Hn (proj1 Hc)) as (Es & Hok & _).
  destruct (place_latitude _ La) as (la & La1 & La2). destruct (place_longitude _ Lo) as (lo & Lo1 & Lo2).
  destruct (figure_read _ F1) as (f1 & F1a & F1b). destruct (figure_read _ F2) as (f2 & F2a & F2b).
  destruct (variation_read _ F3) as (f3 & F3a & F3b).
  pose (d := {| rmc_source := nav; rmc_timestamp := Some (mk_datetime (century now + Z.of_N (sr_year x)) (sr_month x) (sr_day x)
                  (sr_hour x) (sr_minute x) (sr_second x) 0); rmc_status_active := Some (sr_active x);
                rmc_latitude := la; rmc_longitude := lo; rmc_sog_knots := f1; rmc_bearing := f2; rmc_variation := f3 |}).
  exists d. split.
  - rewrite (surjective_pairing (parse_sentence _ _ _ _)), Es. f_equal. apply Hok. exists d. split; [reflexivity|].
    unfold rmc_report, d, fld, rmc_written. cbn [rmc_source rmc_timestamp rmc_status_active rmc_latitude rmc_longitude rmc_sog_knots
      rmc_bearing rmc_variation nth].
    refine (conj eq_refl (conj _ (conj _ (conj La1 (conj Lo1 (conj F1a (conj F2a F3a))))))).
    + apply date_time_some; [|unfold year_in_range, century; assert (0 <= dt_year now / 100 * 100 <= dt_year now)%Z by
        (split; [apply Z.mul_nonneg_nonneg; [apply Z.div_pos|]; lia|rewrite Z.mul_comm; apply Z.mul_div_le; lia]); lia|exact D|exact V].
      destruct D as (D1 & D2 & _). destruct V as (V1 & V2 & V3).
      unfold date_time_numbers, pair_at, date_text, clock_text.
      rewrite first_pair, second_pair. rewrite first_pair, second_pair.
      rewrite third_pair. rewrite <- (app_nil_r (digits_of 2 (sr_year x))) at 1. rewrite third_pair.
      repeat split; try (apply digits_of_denotes; [lia|change (10 ^ N.of_nat 2) with 100; lia]).
      left. exists (sr_year x). split; [|reflexivity]. apply digits_of_denotes; [lia|exact Y].
    + constructor; [now apply status_not_empty|apply status_read].
  - unfold rmc_read_back, d. cbn [rmc_source rmc_timestamp rmc_status_active rmc_latitude rmc_longitude rmc_sog_knots
      rmc_bearing rmc_variation]. unfold century. auto 20.
Qed.
Print Assumptions c111_rmc.

(** The same for GLL and VTG. *)
Theorem c111_gll ovf now tt nav x p :
  utf8_bytes tt = 2%nat -> plain tt -> names_system tt nav -> clock now -> gll_sendable x ->
  exists d, parse_sentence ovf now (written_sentence tt (lit "GLL") (gll_written x)) p = (Ok (PsGll d), p) /\
    gll_read_back now nav x d.
Proof.
  intros Ht Hp Hn Hc (M & La & Lo & V).
  assert (W : gnss_with (written_sentence tt (lit "GLL") (gll_written x)) tt (lit "GLL") (gll_written x)).
  { apply written_gnss; [assumption|assumption|now apply plain_lit_dec|discriminate|]. unfold gll_written. repeat constructor; plain_text. }
  destruct (c42_gll ovf now _ tt nav _ p W Hn Hc) as (Es & Hok & _).
  destruct (place_latitude _ La) as (la & La1 & La2). destruct (place_longitude _ Lo) as (lo & Lo1 & Lo2).
  pose (d := {| gll_source := nav; gll_latitude := la; gll_longitude := lo;
                gll_timestamp := Some (today now (sl_hour x) (sl_minute x) (sl_second x));
                gll_data_valid := Some (sl_valid x); gll_faa_mode := sl_mode x |}).
  exists d. split.
  - rewrite (surjective_pairing (parse_sentence _ _ _ _)), Es. f_equal. apply Hok. exists d. split; [reflexivity|].
    unfold gll_report, d, fld, gll_written. cbn [gll_source gll_timestamp gll_latitude gll_longitude gll_data_valid gll_faa_mode nth].
    refine (conj eq_refl (conj La1 (conj Lo1 (conj _ (conj _ _))))).
    + now apply clock_read.
    + constructor; [now apply status_not_empty|apply status_read].
    + now apply mode_read.
  - unfold gll_read_back, d. cbn [gll_source gll_timestamp gll_latitude gll_longitude gll_data_valid gll_faa_mode]. unfold today. auto 20.
Qed.
Print Assumptions c111_gll.

Theorem c111_vtg ovf now tt nav x p :
  utf8_bytes tt = 2%nat -> plain tt -> names_system tt nav -> vtg_sendable x ->
  exists d, parse_sentence ovf now (written_sentence tt (lit "VTG") (vtg_written x)) p = (Ok (PsVtg d), p) /\
    vtg_read_back nav x d.
Proof.
  intros Ht Hp Hn (M & F1 & F2 & F3 & F4).
  assert (W : gnss_with (written_sentence tt (lit "VTG") (vtg_written x)) tt (lit "VTG") (vtg_written x)).
  { apply written_gnss; [assumption|assumption|now apply plain_lit_dec|discriminate|]. unfold vtg_written. repeat constructor; plain_text. }
  destruct (c43_vtg ovf now _ tt nav _ p W Hn) as ((d0 & Ed) & Hok).
  destruct (figure_read_lenient _ F1) as (f1 & F1a & F1b). destruct (figure_read_lenient _ F2) as (f2 & F2a & F2b).
  destruct (figure_read_lenient _ F3) as (f3 & F3a & F3b). destruct (figure_read_lenient _ F4) as (f4 & F4a & F4b).
  pose (d := {| vtg_source := nav; vtg_cog_true := f1; vtg_cog_magnetic := f2; vtg_sog_knots := f3; vtg_sog_kph := f4;
                vtg_faa_mode := sv_mode x |}).
  exists d. split.
  - assert (E : fst (parse_sentence ovf now (written_sentence tt (lit "VTG") (vtg_written x)) p) = Ok (PsVtg d)).
    { apply Hok. unfold vtg_report, d, fld, vtg_written. cbn [vtg_source vtg_cog_true vtg_cog_magnetic vtg_sog_knots vtg_sog_kph vtg_faa_mode nth].
      refine (conj eq_refl (conj F1a (conj F2a (conj F3a (conj F4a _))))). now apply mode_read. }
    rewrite Ed in E |- *. cbn [fst] in E. injection E as ->. reflexivity.
  - unfold vtg_read_back, d. cbn [vtg_source vtg_cog_true vtg_cog_magnetic vtg_sog_knots vtg_sog_kph vtg_faa_mode]. auto 20.
Qed.
Print Assumptions c111_vtg.

Lemma satellite_read n : n <= 255 -> satellite_text n <> [] /\ number_text 255 (satellite_text n) n.
Proof.
  intros H. unfold satellite_text. destruct (N.ltb_spec n 100).
  - split; [now apply digits_of_numeral; lia|]. split; [|exact H]. apply digits_of_denotes; [lia|change (10 ^ N.of_nat 2) with 100; lia].
  - split; [now apply digits_of_numeral; lia|]. split; [|exact H]. apply digits_of_denotes; [lia|change (10 ^ N.of_nat 3) with 1000; lia].
Qed.

Lemma numbers_padded l n : Forall (fun n => n <= 255) l -> numbers_in (map satellite_text l ++ repeat [] n) l.
Proof.
  intros H. induction H as [|a l Ha _ IH]; cbn [map app].
  - induction n; cbn [repeat]; now constructor.
  - destruct (satellite_read a Ha). now constructor.
Qed.

Lemma flds_middle (a l b : list str) : flds (a ++ l ++ b) (List.length a) (List.length l) = l.
Proof.
  unfold flds. apply nth_ext with (d := []) (d' := []).
  - now rewrite map_length, seq_length.
  - intros i Hi. rewrite map_length, seq_length in Hi.
    rewrite (nth_indep _ _ (fld (a ++ l ++ b) 0)) by now rewrite map_length, seq_length.
    rewrite map_nth, seq_nth by exact Hi. unfold fld. rewrite app_nth2_plus. now apply app_nth1.
Qed.

(** The same for GSA, with the satellites in use. *)
Theorem c111_gsa ovf now tt nav x p :
  utf8_bytes tt = 2%nat -> plain tt -> names_system tt nav -> gsa_sendable x ->
  exists d, parse_sentence ovf now (written_sentence tt (lit "GSA") (gsa_written x)) p = (Ok (PsGsa d), p) /\
    gsa_read_back nav x d.
Proof.
  intros Ht Hp Hn (L & Sa & F1 & F2 & F3).
  assert (W : gnss_with (written_sentence tt (lit "GSA") (gsa_written x)) tt (lit "GSA") (gsa_written x)).
  { apply written_gnss; [assumption|assumption|now apply plain_lit_dec|discriminate|]. unfold gsa_written.
    apply Forall_app. split; [repeat constructor; plain_text|]. apply Forall_app. split; [|apply Forall_app; split].
    - apply List.Forall_forall. intros f Hf. apply in_map_iff in Hf as (n & <- & _). plain_text.
    - apply List.Forall_forall. intros f Hf. apply repeat_spec in Hf as ->. now apply plain_lit_dec.
    - repeat constructor; plain_text. }
  destruct (c41_gsa ovf now _ tt nav _ p W Hn) as (Es & Hok & _).
  destruct (figure_read _ F1) as (f1 & F1a & F1b). destruct (figure_read _ F2) as (f2 & F2a & F2b).
  destruct (figure_read _ F3) as (f3 & F3a & F3b).
  pose (d := {| gsa_source := nav; gsa_mode1_automatic := Some (sa_automatic x); gsa_mode2_3d := Some (sa_fix x);
                gsa_prn_numbers := sa_satellites x; gsa_pdop := f1; gsa_hdop := f2; gsa_vdop := f3 |}).
  exists d. split.
  - rewrite (surjective_pairing (parse_sentence _ _ _ _)), Es. f_equal. apply Hok. exists d. split; [reflexivity|].
    set (head := [if sa_automatic x then lit "A" else lit "M";
                  match sa_fix x with FixNotAvailable => lit "1" | Fix2D => lit "2" | Fix3D => lit "3" end]).
    set (mid := map satellite_text (sa_satellites x) ++ repeat [] (12 - List.length (sa_satellites x))).
    set (rest := [known figure_text (sa_pdop x); known figure_text (sa_hdop x); known figure_text (sa_vdop x)]).
    assert (E : gsa_written x = head ++ mid ++ rest) by (unfold gsa_written, head, mid, rest; now rewrite <- app_assoc).
    assert (M : List.length mid = 12%nat) by (unfold mid; rewrite app_length, map_length, repeat_length; lia).
    assert (A : forall i, fld (gsa_written x) (14 + i) = nth i rest []).
    { intros i. rewrite E. unfold fld. replace (14 + i)%nat with (List.length head + (List.length mid + i))%nat by (rewrite M; reflexivity).
      now rewrite app_nth2_plus, app_nth2_plus. }
    unfold gsa_report, d. cbn [gsa_source gsa_mode1_automatic gsa_mode2_3d gsa_prn_numbers gsa_pdop gsa_hdop gsa_vdop].
    pose proof (A 0%nat) as A0. pose proof (A 1%nat) as A1. pose proof (A 2%nat) as A2. cbn [Nat.add] in A0, A1, A2. rewrite A0, A1, A2.
    refine (conj eq_refl (conj _ (conj _ (conj _ (conj F1a (conj F2a F3a)))))).
    + unfold fld, gsa_written. cbn [app nth]. constructor; [now apply status_not_empty|]. destruct (sa_automatic x); cbn; auto.
    + unfold fld, gsa_written. cbn [app nth]. destruct (sa_fix x); (constructor; [discriminate|]); cbn; auto.
    + rewrite E. rewrite <- M. change 2%nat with (List.length head). rewrite flds_middle. now apply numbers_padded.
  - unfold gsa_read_back, d. cbn [gsa_source gsa_mode1_automatic gsa_mode2_3d gsa_prn_numbers gsa_pdop gsa_hdop gsa_vdop]. auto 20.
Qed.
Print Assumptions c111_gsa.

(** The number that was meant is the only one a double gives. *)
Theorem c111_one_number unit z z' v : gives unit z v -> gives unit z' v -> z = z'.
Proof.
  intros [_ H] [_ H']. apply Rabs_def2 in H, H'. set (y := (real_of v * IZR unit)%R) in *.
  assert (A : (IZR (z - z') < 1)%R) by (rewrite minus_IZR; lra). assert (B : (-1 < IZR (z - z'))%R) by (rewrite minus_IZR; lra).
  apply lt_IZR in A. apply lt_IZR in B. lia.
Qed.
Print Assumptions c111_one_number.

(** A simulator says so with the letter S; it is reported as if it had not. *)
Theorem c111_simulator ovf now tt nav x p :
  utf8_bytes tt = 2%nat -> plain tt -> names_system tt nav ->
  sv_mode x = Some FaaSimulator ->
  exists d, parse_sentence ovf now (written_sentence tt (lit "VTG") (vtg_written x)) p = (Ok (PsVtg d), p) /\
    vtg_faa_mode d = None.
Proof.
  intros Ht Hp Hn M.
  assert (W : gnss_with (written_sentence tt (lit "VTG") (vtg_written x)) tt (lit "VTG") (vtg_written x)).
  { apply written_gnss; [assumption|assumption|now apply plain_lit_dec|discriminate|]. unfold vtg_written. repeat constructor; plain_text. }
  destruct (c43_vtg ovf now _ tt nav _ p W Hn) as ((d & Ed) & Hok). exists d. split; [exact Ed|].
  assert (R : vtg_report nav (vtg_written x) d) by (apply Hok; now rewrite Ed).
  destruct R as (_ & _ & _ & _ & _ & R). unfold fld, vtg_written in R. cbn [nth] in R. rewrite M in R. cbn [known mode_letter] in R.
  destruct R as [_|v _ H]; [reflexivity|]. exfalso. cbn in H. intuition discriminate.
Qed.
Print Assumptions c111_simulator.

(** Sixteen digits are too many: the number ends in 3 and the double in 2. *)
Theorem c111_sixteen_digits_too_many :
  exists d v, parse_sentence true ex_now (written_sentence (lit "GP") (lit "VTG")
      (vtg_written (mk_sent_vtg None None (Some (mk_figure 16 0 9007199254740993)) None None))) new_parser
    = (Ok (PsVtg d), new_parser) /\
  vtg_sog_knots d = Some v /\ gives 1 9007199254740992 v /\ ~ gives 1 9007199254740993 v.
Proof.
  eexists. eexists. split; [vm_compute; reflexivity|]. split; [reflexivity|].
  assert (G : gives 1 9007199254740992 (S754_finite false 4503599627370496 1)).
  { split; [exact Logic.I|]. cbn [real_of]. rewrite powerRZ_1. match goal with |- (Rabs ?a < _)%R => replace a with 0%R by lra end.
    rewrite Rabs_R0. lra. }
  split; [exact G|]. intros H. pose proof (c111_one_number _ _ _ _ G H). discriminate.
Qed.
Print Assumptions c111_sixteen_digits_too_many.

(** A receiver in the south west. *)
Definition ex_sent_gga : sent_gga := mk_sent_gga 12 35 19 25 (Some (mk_place 5 (-228703800))) (Some (mk_place 5 (-699102501)))
  4 (Some 8) (Some (mk_figure 2 1 9)) (Some (mk_figure 4 2 (-1305))) (Some (mk_figure 3 1 469)) None (Some 120).

Example c111_gga_example :
  gga_sendable ex_sent_gga /\
  written_sentence (lit "GN") (lit "GGA") (gga_written ex_sent_gga) =
    lit "$GNGGA,123519.25,3807.03800,S,11631.02501,W,4,08,00.9,-0013.05,M,046.9,M,,0120*54".
Proof.
  split; [|vm_compute; reflexivity].
  unfold gga_sendable, ex_sent_gga, every, within, fits, valid_time, units_per_degree.
  cbn [sg_hour sg_minute sg_second sg_latitude sg_longitude sg_quality sg_satellites sg_hdop sg_altitude sg_geoid sg_age sg_station
    minute_decimals place_units digits_before digits_after figure_units].
  repeat split; try (cbn; lia); try reflexivity; vm_compute; intuition discriminate.
Qed.

Definition ex_sent_rmc : sent_rmc := mk_sent_rmc 22 54 46 33 29 2 24 true (Some (mk_place 2 295645)) (Some (mk_place 3 (-7391120)))
  (Some (mk_figure 3 1 5)) (Some (mk_figure 3 2 5470)) (Some (mk_figure 3 1 (-203))) (lit "A").

Example c111_rmc_example :
  rmc_sendable (mk_datetime 2020 1 1 0 0 0 0) ex_sent_rmc /\
  written_sentence (lit "GP") (lit "RMC") (rmc_written ex_sent_rmc) =
    lit "$GPRMC,225446.33,A,4916.45,N,12311.120,W,000.5,054.70,290224,020.3,W,A*33".
Proof.
  split; [|vm_compute; reflexivity].
  unfold rmc_sendable, ex_sent_rmc, every, within, fits, valid_time, units_per_degree.
  cbn [sr_hour sr_minute sr_second sr_day sr_month sr_year sr_latitude sr_longitude sr_speed sr_course sr_variation sr_mode
    minute_decimals place_units digits_before digits_after figure_units dt_year].
  repeat split; try (cbn; lia); try reflexivity; try (vm_compute; intuition discriminate).
  intros _. right. split; [reflexivity|]. left. change (2020 / 100 * 100 + Z.of_N 24)%Z with 2024%Z.
  split; [now exists 506%Z|]. intros [k Hk]. lia.
Qed.

Definition ex_sent_gll : sent_gll := mk_sent_gll None (Some (mk_place 1 (-1))) 0 0 0 99 false (Some FaaEstimated).
Definition ex_sent_vtg : sent_vtg := mk_sent_vtg (Some (mk_figure 3 1 3599)) None (Some (mk_figure 1 14 123456789012345)) None (Some FaaNotValid).
Definition ex_sent_gsa : sent_gsa := mk_sent_gsa true Fix3D [4; 5; 193] None (Some (mk_figure 1 0 1)) (Some (mk_figure 1 1 21)).

Example c111_others_example :
  gll_sendable ex_sent_gll /\ vtg_sendable ex_sent_vtg /\ gsa_sendable ex_sent_gsa /\
  written_sentence (lit "GP") (lit "GLL") (gll_written ex_sent_gll) = lit "$GPGLL,,,00000.1,W,000000.99,V,E*39" /\
  written_sentence (lit "GP") (lit "VTG") (vtg_written ex_sent_vtg) = lit "$GPVTG,359.9,T,,M,1.23456789012345,N,,K,N*1A" /\
  written_sentence (lit "GP") (lit "GSA") (gsa_written ex_sent_gsa) = lit "$GPGSA,A,3,04,05,193,,,,,,,,,,,1.,2.1*14".
Proof.
  split; [|split; [|split; [|split; [|split; vm_compute; reflexivity]]]]; [| | |vm_compute; reflexivity];
  unfold gll_sendable, vtg_sendable, gsa_sendable, ex_sent_gll, ex_sent_vtg, ex_sent_gsa, every, within, fits, valid_time, units_per_degree, readable_mode;
  cbn [sl_mode sl_latitude sl_longitude sl_hour sl_minute sl_second sv_mode sv_true sv_magnetic sv_knots sv_kph sa_satellites sa_pdop sa_hdop sa_vdop
    minute_decimals place_units digits_before digits_after figure_units].
  all: repeat split; try discriminate; try (cbn; lia); try reflexivity; try (vm_compute; intuition discriminate).
  repeat (apply Forall_cons; [lia|]). apply Forall_nil.
Qed.
