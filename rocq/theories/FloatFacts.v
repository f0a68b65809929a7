(** The specification floats of the model against real arithmetic, through Flocq. *)
From Coq Require Import List NArith ZArith Bool Reals Psatz Floats.SpecFloat.
From Flocq Require Import Core BinarySingleNaN.
From Verif Require Import Base Str F64 SpecReal.
Import ListNotations.
Open Scope R_scope.

Notation fexp64 := (SpecFloat.fexp 53 1024).
(** Rounding to nearest, ties to even, without bound on the exponent. *)
Definition rnd (v : R) : R := round radix2 fexp64 ZnearestE v.

Global Instance prec53 : Prec_gt_0 53 := eq_refl.
Global Instance emax1024 : Prec_lt_emax 53 1024 := eq_refl.

Lemma choice_mode_NE s m l : round_nearest_even m l = choice_mode mode_NE s m l.
Proof. destruct l as [|c]; [reflexivity|]. destruct c; [|reflexivity..]. cbn. unfold Round.cond_incr. now destruct (Z.even m). Qed.

Lemma round_aux_NE sx mx ex lx :
  SpecFloat.binary_round_aux 53 1024 sx mx ex lx = BinarySingleNaN.binary_round_aux 53 1024 mode_NE sx mx ex lx.
Proof.
  unfold SpecFloat.binary_round_aux, BinarySingleNaN.binary_round_aux.
  destruct (shr_fexp 53 1024 mx ex lx) as [mrs e]. cbn. now rewrite (choice_mode_NE sx).
Qed.

Lemma round_NE s m e :
  SpecFloat.binary_round 53 1024 s m e = BinarySingleNaN.binary_round 53 1024 mode_NE s m e.
Proof.
  unfold SpecFloat.binary_round, BinarySingleNaN.binary_round, shl_align_fexp.
  destruct (shl_align _ _ _) as [mz ez]. apply round_aux_NE.
Qed.

Lemma powerRZ_bpow e : powerRZ 2 e = bpow radix2 e.
Proof. symmetry. rewrite bpow_powerRZ. reflexivity. Qed.

Lemma real_of_SF2R x : real_of x = SF2R radix2 x.
Proof.
  destruct x as [s|s| |s m e]; try reflexivity. unfold real_of, SF2R, F2R. cbn [Fnum Fexp].
  rewrite powerRZ_bpow. destruct s; cbn [cond_Zopp]; [|reflexivity].
  change (- Z.pos m)%Z with (Z.neg m). change (IZR (Z.neg m)) with (- IZR (Z.pos m)). reflexivity.
Qed.

Lemma fexp_FLT e : fexp64 e = FLT_exp (-1074) 53 e.
Proof. reflexivity. Qed.

(** ** Doubles *)

Lemma digits2_spec m : (2 ^ (Zpos (digits2_pos m) - 1) <= Zpos m < 2 ^ Zpos (digits2_pos m))%Z.
Proof.
  rewrite Digits.Zpos_digits2_pos. pose proof (Digits.Zdigits_correct radix2 (Zpos m)) as H.
  change (Z.abs (Zpos m)) with (Zpos m) in H. exact H.
Qed.

Lemma proper_valid x : valid_binary 53 1024 x = true <-> proper x.
Proof.
  destruct x as [s|s| |s m e]; try (split; reflexivity).
  cbn [valid_binary proper]. unfold bounded, canonical_mantissa, fexp, SpecFloat.emin.
  pose proof (digits2_spec m) as D. set (d := Zpos (digits2_pos m)) in *.
  rewrite andb_true_iff, <- Zeq_is_eq_bool, Z.leb_le.
  assert (Hd : (0 < d)%Z) by (unfold d; lia).
  assert (A : (d <= 53 <-> Zpos m < 2 ^ 53)%Z).
  { split; intros H.
    - eapply Z.lt_le_trans; [apply D|]. apply Z.pow_le_mono_r; lia.
    - destruct (Z.le_gt_cases d 53) as [L|L]; [exact L|]. exfalso.
      assert (2 ^ 53 <= 2 ^ (d - 1))%Z by (apply Z.pow_le_mono_r; lia). lia. }
  assert (B : (53 <= d <-> 2 ^ 52 <= Zpos m)%Z).
  { split; intros H.
    - etransitivity; [|apply D]. apply Z.pow_le_mono_r; lia.
    - destruct (Z.le_gt_cases 53 d) as [L|L]; [exact L|]. exfalso.
      assert (2 ^ d <= 2 ^ 52)%Z by (apply Z.pow_le_mono_r; lia). lia. }
  change (3 - 1024 - 53)%Z with (-1074)%Z. change (1024 - 53)%Z with 971%Z.
  rewrite <- A, <- B. lia.
Qed.

Lemma proper_format s m e : proper (S754_finite s m e) ->
  canonical radix2 fexp64 (Float radix2 (cond_Zopp s (Zpos m)) e) /\ Rabs (real_of (S754_finite s m e)) < bpow radix2 1024.
Proof.
  intros H. apply proper_valid in H. cbn [valid_binary] in H.
  split.
  - exact (canonical_bounded 53 1024 s m e H).
  - rewrite real_of_SF2R. cbn [SF2R]. rewrite <- F2R_Zabs, abs_cond_Zopp.
    apply (bounded_lt_emax 53 1024). exact H.
Qed.

Lemma double_value_format r : double_value r -> generic_format radix2 fexp64 r /\ Rabs r < bpow radix2 1024.
Proof.
  intros (m & e & -> & Hm & He). rewrite powerRZ_bpow. split.
  - apply (generic_format_FLT radix2 (-1074) 53). exists (Float radix2 m e); [reflexivity|exact Hm|cbn; lia].
  - rewrite Rabs_mult, (Rabs_pos_eq (bpow _ _)) by apply bpow_ge_0.
    rewrite <- abs_IZR. apply Rlt_le_trans with (IZR (2 ^ 53) * bpow radix2 e).
    + apply Rmult_lt_compat_r; [apply bpow_gt_0|]. now apply IZR_lt.
    + change (IZR (2 ^ 53)) with (bpow radix2 53). rewrite <- bpow_plus. apply bpow_le. lia.
Qed.

Lemma format_double_value r : generic_format radix2 fexp64 r -> Rabs r < bpow radix2 1024 -> double_value r.
Proof.
  intros H HB. unfold generic_format in H. set (m := Ztrunc (scaled_mantissa radix2 fexp64 r)) in *.
  set (e := cexp radix2 fexp64 r) in *.
  destruct (Req_dec r 0) as [-> |Hr].
  { exists 0%Z, 0%Z. split; [now rewrite Rmult_0_l|]. lia. }
  exists m, e. split; [now rewrite powerRZ_bpow|].
  assert (Hmag : (mag radix2 r <= 1024)%Z) by (apply mag_le_bpow; assumption).
  assert (He : (-1074 <= e <= 971)%Z).
  { unfold e, cexp. unfold fexp, SpecFloat.emin. lia. }
  split; [|exact He].
  apply lt_IZR. rewrite abs_IZR. change (IZR (2 ^ 53)) with (bpow radix2 53).
  apply Rmult_lt_reg_r with (bpow radix2 e); [apply bpow_gt_0|].
  rewrite <- bpow_plus. rewrite <- (Rabs_pos_eq (bpow radix2 e)) at 1 by apply bpow_ge_0.
  rewrite <- Rabs_mult. change (IZR m * bpow radix2 e) with (F2R (Float radix2 m e)). rewrite <- H.
  eapply Rlt_le_trans; [apply bpow_mag_gt|]. apply bpow_le. unfold e, cexp, fexp. lia.
Qed.

(** ** Nearest *)

Lemma rnd_pt v : Rnd_NE_pt radix2 fexp64 v (rnd v).
Proof.
  unfold rnd. apply (@round_NE_pt radix2 (FLT_exp (-1074) 53)); [apply FLT_exp_valid; exact prec53|].
  apply exists_NE_FLT. right. reflexivity.
Qed.

Lemma even_of_format x : finite x -> proper x -> NE_prop radix2 fexp64 0 (real_of x) -> even_significand x.
Proof.
  intros Fx Px (g & Hg & Cg & Eg). destruct x as [s|s| |s m e]; try exact I.
  destruct (proper_format s m e Px) as [C _]. rewrite real_of_SF2R in Hg. cbn [SF2R] in Hg.
  pose proof (canonical_unique _ _ _ _ C Cg Hg) as E. cbn [even_significand].
  rewrite <- E in Eg. cbn [Fnum] in Eg. destruct s; cbn [cond_Zopp] in Eg; [|exact Eg].
  rewrite Z.even_opp in Eg. exact Eg.
Qed.

Lemma nearest_rnd v x : finite x -> proper x -> real_of x = rnd v -> nearest v x.
Proof.
  intros Fx Px E. split; [exact Fx|]. split; [exact Px|]. intros r Hr.
  pose proof (rnd_pt v) as [[HF HN] Ht]. rewrite <- E in *.
  apply double_value_format in Hr as [Hr _]. split; [now apply HN|].
  intros Hne Heq. destruct Ht as [Ht|Ht]; [now apply even_of_format|].
  exfalso. apply Hne, Ht. split; [exact Hr|]. intros g Hg. rewrite Heq. now apply HN.
Qed.

Lemma even_format x : finite x -> proper x -> even_significand x -> NE_prop radix2 fexp64 0 (real_of x).
Proof.
  intros Fx Px Ex. destruct x as [s|s| |s m e]; try destruct Fx.
  - exists (Float radix2 0 (fexp64 (mag radix2 0))). cbn [real_of]. split; [now rewrite F2R_0|]. split; [|reflexivity].
    unfold canonical. cbn [Fexp]. now rewrite F2R_0.
  - destruct (proper_format s m e Px) as [C _]. exists (Float radix2 (cond_Zopp s (Zpos m)) e).
    split; [rewrite real_of_SF2R; reflexivity|]. split; [exact C|]. cbn [Fnum even_significand] in *.
    destruct s; cbn [cond_Zopp]; [rewrite Z.even_opp|]; exact Ex.
Qed.

Lemma proper_is_format x : finite x -> proper x -> generic_format radix2 fexp64 (real_of x) /\ Rabs (real_of x) < bpow radix2 1024.
Proof.
  intros Fx Px. destruct x as [s|s| |s m e]; try destruct Fx.
  - cbn [real_of]. split; [apply generic_format_0|]. rewrite Rabs_R0. apply bpow_gt_0.
  - destruct (proper_format s m e Px) as [C B]. split; [|exact B].
    rewrite real_of_SF2R. cbn [SF2R]. now apply generic_format_canonical.
Qed.

Lemma nearest_is_rnd v x : nearest v x -> Rabs (rnd v) < bpow radix2 1024 -> real_of x = rnd v.
Proof.
  intros (Fx & Px & H) HB. pose proof (rnd_pt v) as [[HF HN] Ht].
  destruct (proper_is_format x Fx Px) as [Xf Xb].
  assert (D : double_value (rnd v)) by now apply format_double_value.
  destruct (H _ D) as [H1 H2].
  assert (NX : Rnd_N_pt (generic_format radix2 fexp64) v (real_of x)).
  { split; [exact Xf|]. intros g Hg. eapply Rle_trans; [exact H1|]. now apply HN. }
  destruct (Req_dec (rnd v) (real_of x)) as [E|E]; [now symmetry|].
  assert (Ev : even_significand x).
  { apply H2; [exact E|]. apply Rle_antisym; [|exact H1]. now apply HN. }
  destruct Ht as [Ht|Ht]; [|now apply Ht].
  assert (NE : Rnd_NE_pt radix2 fexp64 v (real_of x)) by (split; [exact NX|left; now apply even_format]).
  pose proof (rnd_pt v) as NR.
  assert (V : Valid_exp fexp64) by (apply FLT_exp_valid; exact prec53).
  assert (X : Exists_NE radix2 fexp64) by (apply (exists_NE_FLT radix2 (-1074) 53); right; reflexivity).
  pose proof (Rnd_NE_pt_monotone radix2 fexp64) as M.
  apply Rle_antisym; [exact (M v v _ _ NE NR (Rle_refl v))|exact (M v v _ _ NR NE (Rle_refl v))].
Qed.

(** Same sign and real value: the same double. *)
Lemma real_of_inj x y : finite x -> finite y -> proper x -> proper y ->
  negative x = negative y -> real_of x = real_of y -> x = y.
Proof.
  intros Fx Fy Px Py Hs Hr. apply proper_valid in Px, Py.
  rewrite <- (B2SF_SF2B 53 1024 x Px), <- (B2SF_SF2B 53 1024 y Py). f_equal.
  apply B2R_Bsign_inj.
  - rewrite is_finite_SF2B. destruct x; (reflexivity || destruct Fx).
  - rewrite is_finite_SF2B. destruct y; (reflexivity || destruct Fy).
  - rewrite !B2R_SF2B, <- !real_of_SF2R. exact Hr.
  - rewrite !Bsign_SF2B. destruct x, y; exact Hs.
Qed.

(** ** Operations *)

(** [x] is [v] rounded, an infinity if that is too large, with this sign bit. *)
Definition rounds (s : bool) (v : R) (x : f64) : Prop :=
  proper x /\
  (Rabs (rnd v) < bpow radix2 1024 -> real_of x = rnd v /\ finite x /\ negative x = s) /\
  (bpow radix2 1024 <= Rabs (rnd v) -> x = S754_infinity s).

Lemma finite_SF x : is_finite_SF x = true -> finite x.
Proof. now destruct x. Qed.

Lemma rounds_intro s v x :
  (valid_binary 53 1024 x = true /\
   if Rlt_bool (Rabs (round radix2 fexp64 (round_mode mode_NE) v)) (bpow radix2 1024)
   then SF2R radix2 x = round radix2 fexp64 (round_mode mode_NE) v /\ is_finite_SF x = true /\ sign_SF x = s
   else x = binary_overflow 53 1024 mode_NE s) -> rounds s v x.
Proof.
  intros [Hv H]. split; [now apply proper_valid|]. change (round_mode mode_NE) with ZnearestE in H.
  fold (rnd v) in H. destruct (Rlt_bool_spec (Rabs (rnd v)) (bpow radix2 1024)) as [L|L].
  - split; [intros _|intros L'; exfalso; lra]. rewrite real_of_SF2R. destruct H as (H1 & H2 & H3).
    split; [exact H1|]. split; [now apply finite_SF|]. now destruct x.
  - split; [intros L'; exfalso; lra|]. intros _. exact H.
Qed.

Lemma binary_round_rounds s m e : rounds s (F2R (Float radix2 (cond_Zopp s (Zpos m)) e)) (SpecFloat.binary_round 53 1024 s m e).
Proof.
  rewrite round_NE. apply rounds_intro. exact (binary_round_correct 53 1024 prec53 emax1024 mode_NE s m e).
Qed.

Lemma div_rounds sx mx ex sy my ey :
  rounds (xorb sx sy) (F2R (Float radix2 (cond_Zopp sx (Zpos mx)) ex) / F2R (Float radix2 (cond_Zopp sy (Zpos my)) ey))
    (SFdiv 53 1024 (S754_finite sx mx ex) (S754_finite sy my ey)).
Proof.
  apply rounds_intro. pose proof (Bdiv_correct_aux 53 1024 prec53 emax1024 mode_NE sx mx ex sy my ey) as H.
  cbn [SFdiv]. destruct (SFdiv_core_binary 53 1024 (Zpos mx) ex (Zpos my) ey) as [[mz ez] lz].
  rewrite round_aux_NE. exact H.
Qed.

Lemma rnd_0 : rnd 0 = 0.
Proof. unfold rnd. apply round_0. auto with typeclass_instances. Qed.

Lemma rounds_zero s v : v = 0 -> rounds s v (S754_zero s).
Proof.
  intros ->. split; [exact I|]. rewrite rnd_0, Rabs_R0. pose proof (bpow_gt_0 radix2 1024). split.
  - intros _. split; [reflexivity|]. split; [exact I|reflexivity].
  - intros L. exfalso. lra.
Qed.

Lemma f64_div_rounds x y : finite x -> finite y -> real_of y <> 0 ->
  rounds (xorb (negative x) (negative y)) (real_of x / real_of y) (f64_div x y).
Proof.
  intros Fx Fy Hy. unfold f64_div. destruct y as [sy|sy| |sy my ey]; try destruct Fy; [now destruct Hy|].
  destruct x as [sx|sx| |sx mx ex]; try destruct Fx.
  - apply rounds_zero. cbn [real_of]. unfold Rdiv. apply Rmult_0_l.
  - rewrite !real_of_SF2R. apply div_rounds.
Qed.

Lemma f64_mul_rounds x y : finite x -> finite y -> proper x -> proper y ->
  rounds (xorb (negative x) (negative y)) (real_of x * real_of y) (f64_mul x y).
Proof.
  intros Fx Fy Px Py. unfold f64_mul. apply proper_valid in Px, Py.
  destruct x as [sx|sx| |sx mx ex], y as [sy|sy| |sy my ey]; try destruct Fx; try destruct Fy;
    try (apply rounds_zero; cbn [real_of]; ring).
  rewrite !real_of_SF2R. apply rounds_intro.
  pose proof (Bmult_correct_aux 53 1024 prec53 emax1024 mode_NE sx mx ex Px sy my ey Py) as H.
  cbn [SFmul]. rewrite round_aux_NE. exact H.
Qed.

Lemma f64_of_Z_rounds z : rounds (z <? 0)%Z (IZR z) (f64_of_Z z).
Proof.
  unfold f64_of_Z. destruct z as [|m|m].
  - now apply rounds_zero.
  - pose proof (binary_round_rounds false m 0) as H. unfold F2R in H. cbn [Fnum Fexp cond_Zopp bpow] in H.
    rewrite Rmult_1_r in H. exact H.
  - pose proof (binary_round_rounds true m 0) as H. unfold F2R in H. cbn [Fnum Fexp cond_Zopp bpow] in H.
    rewrite Rmult_1_r in H. exact H.
Qed.

Lemma rnd_exact v : generic_format radix2 fexp64 v -> rnd v = v.
Proof. intros H. unfold rnd. apply round_generic; [auto with typeclass_instances|exact H]. Qed.

Lemma integer_double z : (Z.abs z <= 2 ^ 53)%Z -> double_value (IZR z).
Proof.
  intros H. destruct (Z.eq_dec (Z.abs z) (2 ^ 53)) as [E|E].
  - destruct (Z.abs_spec z) as [[_ Ez]|[_ Ez]]; rewrite Ez in E; [rewrite E|replace z with (- 2 ^ 53)%Z by lia].
    + exists (2 ^ 52)%Z, 1%Z. split; [|lia]. rewrite powerRZ_1, <- mult_IZR. f_equal.
    + exists (- 2 ^ 52)%Z, 1%Z. split; [|lia]. rewrite powerRZ_1, <- mult_IZR. f_equal.
  - exists z, 0%Z. split; [cbn; ring|]. lia.
Qed.

Lemma f64_of_Z_exact z : (Z.abs z <= 2 ^ 53)%Z ->
  real_of (f64_of_Z z) = IZR z /\ finite (f64_of_Z z) /\ proper (f64_of_Z z) /\ negative (f64_of_Z z) = (z <? 0)%Z.
Proof.
  intros H. apply integer_double in H. apply double_value_format in H as [H1 H2].
  destruct (f64_of_Z_rounds z) as (P & Hf & _). rewrite (rnd_exact _ H1) in Hf.
  destruct (Hf H2) as (A & B & C). auto.
Qed.

Lemma normalize_NE m e s :
  SpecFloat.binary_normalize 53 1024 m e s = B2SF (BinarySingleNaN.binary_normalize 53 1024 prec53 emax1024 mode_NE m e s).
Proof.
  destruct m as [|p|p]; [reflexivity| |]; cbn [SpecFloat.binary_normalize BinarySingleNaN.binary_normalize];
    rewrite B2SF_SF2B; apply round_NE.
Qed.

Lemma f64_add_B x y (Hx : valid_binary 53 1024 x = true) (Hy : valid_binary 53 1024 y = true) :
  f64_add x y = B2SF (Bplus mode_NE (SF2B x Hx) (SF2B y Hy)).
Proof.
  unfold f64_add. destruct x as [sx|sx| |sx mx ex], y as [sy|sy| |sy my ey];
    try reflexivity; cbn [SFadd SF2B Bplus]; try (destruct (Bool.eqb sx sy); reflexivity).
  apply normalize_NE.
Qed.

Lemma f64_add_rounds x y : finite x -> finite y -> proper x -> proper y ->
  Rabs (rnd (real_of x + real_of y)) < bpow radix2 1024 ->
  real_of (f64_add x y) = rnd (real_of x + real_of y) /\ finite (f64_add x y) /\ proper (f64_add x y).
Proof.
  intros Fx Fy Px Py HB. apply proper_valid in Px, Py.
  rewrite (f64_add_B x y Px Py).
  assert (Gx : is_finite (SF2B x Px) = true) by (rewrite is_finite_SF2B; destruct x; (reflexivity || destruct Fx)).
  assert (Gy : is_finite (SF2B y Py) = true) by (rewrite is_finite_SF2B; destruct y; (reflexivity || destruct Fy)).
  pose proof (Bplus_correct 53 1024 prec53 emax1024 mode_NE _ _ Gx Gy) as H.
  rewrite !B2R_SF2B, <- !real_of_SF2R in H. change (round_mode mode_NE) with ZnearestE in H.
  fold (rnd (real_of x + real_of y)) in H. rewrite Rlt_bool_true in H by exact HB.
  destruct H as (H1 & H2 & _). rewrite real_of_SF2R, SF2R_B2SF. split; [exact H1|]. split.
  - apply finite_SF. now rewrite is_finite_SF_B2SF.
  - apply proper_valid, valid_binary_B2SF.
Qed.

Lemma f64_add_nonneg x y : negative x = false -> negative y = false -> finite x -> finite y -> proper x -> proper y ->
  Rabs (rnd (real_of x + real_of y)) < bpow radix2 1024 -> negative (f64_add x y) = false.
Proof.
  intros Nx Ny Fx Fy Px Py HB. apply proper_valid in Px, Py.
  rewrite (f64_add_B x y Px Py).
  assert (Gx : is_finite (SF2B x Px) = true) by (rewrite is_finite_SF2B; destruct x; (reflexivity || destruct Fx)).
  assert (Gy : is_finite (SF2B y Py) = true) by (rewrite is_finite_SF2B; destruct y; (reflexivity || destruct Fy)).
  pose proof (Bplus_correct 53 1024 prec53 emax1024 mode_NE _ _ Gx Gy) as H.
  rewrite !B2R_SF2B, <- !real_of_SF2R in H. change (round_mode mode_NE) with ZnearestE in H.
  fold (rnd (real_of x + real_of y)) in H. rewrite Rlt_bool_true in H by exact HB.
  destruct H as (_ & _ & H3).
  assert (S : Bsign (SF2B x Px) = false) by (rewrite Bsign_SF2B; destruct x; exact Nx).
  rewrite S in H3.
  assert (P : forall z, negative z = false -> 0 <= real_of z).
  { intros [s|s| |s m e] Hz; cbn in Hz |- *; try lra. subst s. apply Rmult_le_pos; [apply IZR_le; lia|].
    rewrite powerRZ_bpow. apply bpow_ge_0. }
  pose proof (P _ Nx). pose proof (P _ Ny).
  assert (H4 : Bsign (Bplus mode_NE (SF2B x Px) (SF2B y Py)) = false).
  { rewrite H3. destruct (Rcompare_spec (real_of x + real_of y) 0); [lra|reflexivity|reflexivity]. }
  rewrite <- H4. now destruct (Bplus _ _ _).
Qed.

Lemma f64_neg_real x : real_of (f64_neg x) = - real_of x.
Proof.
  destruct x as [s|s| |s m e]; cbn; try ring. destruct s; cbn; ring.
Qed.
Lemma f64_neg_finite x : finite (f64_neg x) <-> finite x. Proof. now destruct x. Qed.
Lemma f64_neg_proper x : proper (f64_neg x) <-> proper x. Proof. now destruct x. Qed.

(** ** Decimal numbers *)

Lemma powerRZ_10 e : (0 <= e)%Z -> powerRZ 10 e = IZR (10 ^ e).
Proof.
  intros H. rewrite <- (Z2Nat.id e H) at 1. rewrite <- pow_powerRZ. change 10 with (IZR 10).
  rewrite pow_IZR. now rewrite Z2Nat.id.
Qed.

Lemma F2R_int s p : F2R (Float radix2 (cond_Zopp s (Zpos p)) 0) = IZR (cond_Zopp s (Zpos p)).
Proof. unfold F2R. cbn [Fnum Fexp bpow]. apply Rmult_1_r. Qed.

Definition signed (neg : bool) (r : R) : R := if neg then - r else r.

Lemma IZR_cond neg z : IZR (cond_Zopp neg z) = signed neg (IZR z).
Proof. destruct neg; cbn; [apply opp_IZR|reflexivity]. Qed.

Lemma f64_of_dec_rounds neg n e : rounds neg (signed neg (IZR (Z.of_N n) * powerRZ 10 e)) (f64_of_dec neg n e).
Proof.
  unfold f64_of_dec. destruct n as [|p].
  - apply rounds_zero. cbn [Z.of_N]. rewrite Rmult_0_l. destruct neg; cbn; ring.
  - cbn [Z.of_N]. destruct (Z.leb_spec 0 e) as [He|He].
    + pose proof (binary_round_rounds neg (Z.to_pos (Z.pos p * 10 ^ e)) 0) as H. rewrite F2R_int, IZR_cond in H.
      rewrite Z2Pos.id in H by (apply Z.mul_pos_pos; [lia|now apply Z.pow_pos_nonneg]).
      rewrite mult_IZR, <- (powerRZ_10 e He) in H. exact H.
    + pose proof (div_rounds neg p 0 false (Z.to_pos (10 ^ (- e))) 0) as H. rewrite !F2R_int, !IZR_cond in H.
      rewrite xorb_false_r in H. rewrite Z2Pos.id in H by (apply Z.pow_pos_nonneg; lia).
      cbn [signed] in H. replace (signed neg (IZR (Z.pos p) * powerRZ 10 e)) with (signed neg (IZR (Z.pos p)) / IZR (10 ^ (- e))); [exact H|].
      rewrite <- (powerRZ_10 (- e)) by lia. rewrite powerRZ_neg' . unfold Rdiv. rewrite Rinv_inv.
      destruct neg; cbn; ring.
Qed.

(** ** Bounds *)

Global Instance valid_fexp64 : Valid_exp fexp64.
Proof. apply (FLT_exp_valid (-1074) 53). Qed.

Lemma rnd_le v w : v <= w -> rnd v <= rnd w.
Proof. intros H. unfold rnd. apply round_le; [apply valid_fexp64|auto with typeclass_instances|exact H]. Qed.

Lemma rnd_bpow k : (-1074 <= k)%Z -> rnd (bpow radix2 k) = bpow radix2 k.
Proof. intros H. apply rnd_exact, generic_format_bpow. unfold fexp, SpecFloat.emin. lia. Qed.

Lemma rnd_opp v : rnd (- v) = - rnd v.
Proof. unfold rnd. apply round_NE_opp. Qed.

Lemma rnd_abs_le k v : (-1074 <= k)%Z -> Rabs v <= bpow radix2 k -> Rabs (rnd v) <= bpow radix2 k.
Proof.
  intros Hk H. apply Rabs_le_inv in H as [H1 H2]. apply Rabs_le. rewrite <- (rnd_bpow k Hk), <- rnd_opp. split; now apply rnd_le.
Qed.

Lemma rnd_in_range k v : (-1074 <= k < 1024)%Z -> Rabs v <= bpow radix2 k -> Rabs (rnd v) < bpow radix2 1024.
Proof.
  intros Hk H. apply Rle_lt_trans with (bpow radix2 k); [apply rnd_abs_le; [lia|exact H]|]. apply bpow_lt. lia.
Qed.

Lemma rnd_error k v : (-1021 <= k)%Z -> Rabs v <= bpow radix2 k -> Rabs (rnd v - v) <= bpow radix2 (k - 53).
Proof.
  intros Hk H. unfold rnd. eapply Rle_trans; [apply error_le_half_ulp; apply valid_fexp64|].
  apply Rle_trans with (/ 2 * bpow radix2 (k - 52)).
  - apply Rmult_le_compat_l; [lra|]. eapply Rle_trans; [apply (ulp_le radix2 fexp64 v (bpow radix2 k))|].
    + rewrite (Rabs_pos_eq (bpow _ _)) by apply bpow_ge_0. exact H.
    + rewrite ulp_bpow. apply bpow_le. unfold fexp, SpecFloat.emin. lia.
  - replace (k - 52)%Z with (1 + (k - 53))%Z by lia. rewrite bpow_plus.
    change (bpow radix2 1) with 2. lra.
Qed.
