(** C101: two GNSS reports are equal exactly if their sentences have the same data. *)
From Coq Require Import List NArith ZArith Bool String Lia Reals Lra Floats.SpecFloat.
From Flocq Require Import Core.
From Verif Require Import Base Str F64 Chrono Types Util Gnss Parser Equality
  SpecText SpecResult SpecAis SpecTime SpecReal SpecFields SpecWriting SpecEq SpecSharp StrFacts FrontFacts CallFacts ResultFacts
  FloatFacts DecimalFacts FieldFacts PropFront PropFields PropWriting PropEq.
Import ListNotations.
Open Scope N_scope.

(** ** A numeral stands for one number *)

Definition parts (body : str) : option (N * Z) :=
  let '(ip, r1) := span_digits body in
  let '(fp, r2) := match r1 with c :: t => if c =? 46 then span_digits t else ([], r1) | [] => ([], r1) end in
  match parse_exponent r2 with Some e => Some (numeral_value (ip ++ fp), (e - Z.of_nat (List.length fp))%Z) | None => None end.

Lemma dec_body_parts body n e : dec_body body n e -> parts body = Some (n, e).
Proof.
  intros (ip & dot & fp & ex & z & -> & Hip & Hfp & Hne & Hdot & Hex & -> & ->).
  pose proof (exponent_no_digit _ _ Hex) as Hnd. unfold parts.
  rewrite (span_digits_app ip).
  2:{ exact Hip. }
  2:{ destruct Hdot as [-> |[-> ->]]; [intros [A _]; now apply A|exact Hnd]. }
  match goal with |- (let '(_, _) := ?m in _) = _ => assert (E : m = (fp, ex)) end.
  { destruct Hdot as [-> |[-> ->]].
    - change (lit "." ++ fp ++ ex) with (46 :: fp ++ ex). cbn iota. rewrite N.eqb_refl. now apply span_digits_app.
    - cbn [app]. destruct Hex as [|mark sign neg' ds [-> | ->] _ _]; reflexivity. }
  rewrite E. apply parse_exponent_spec in Hex. now rewrite Hex.
Qed.

Lemma dec_body_first body n e : dec_body body n e -> exists c t, body = c :: t /\ (digit c \/ c = 46).
Proof.
  intros (ip & dot & fp & ex & z & -> & Hip & Hfp & Hne & Hdot & _).
  destruct ip as [|c ip]; [|inversion Hip; subst; exists c; eexists; split; [reflexivity|now left]].
  destruct Hdot as [-> |[-> ->]]; [|now destruct Hne]. eexists 46, _. split; [reflexivity|now right].
Qed.

Lemma sign_body_unique sign neg body sign' neg' body' c t c' t' :
  sign ++ body = sign' ++ body' -> sign_text sign neg -> sign_text sign' neg' ->
  body = c :: t -> (digit c \/ c = 46) -> body' = c' :: t' -> (digit c' \/ c' = 46) -> neg = neg' /\ body = body'.
Proof.
  intros E [[-> ->]|[[-> ->]|[-> ->]]] [[-> ->]|[[-> ->]|[-> ->]]] Eb Hc Eb' Hc'; subst body body';
    cbn in E; injection E as E1 E2; subst; unfold digit in *; try (split; reflexivity); lia.
Qed.

Lemma decimal_unique f neg n e neg' n' e' : decimal f neg n e -> decimal f neg' n' e' -> neg = neg' /\ n = n' /\ e = e'.
Proof.
  rewrite !decimal_body. intros (sg & b & -> & S & B) (sg' & b' & E & S' & B').
  destruct (dec_body_first _ _ _ B) as (c & t & Eb & Hc), (dec_body_first _ _ _ B') as (c' & t' & Eb' & Hc').
  destruct (sign_body_unique _ _ _ _ _ _ _ _ _ _ E S S' Eb Hc Eb' Hc') as [-> <-].
  apply dec_body_parts in B, B'. rewrite B in B'. now injection B' as -> ->.
Qed.

Open Scope R_scope.

Lemma stands_unique f v w : stands_for f v -> stands_for f w -> v = w.
Proof. intros (a & b & c & D & ->) (a' & b' & c' & D' & ->). now destruct (decimal_unique _ _ _ _ _ _ _ D D') as (-> & -> & ->). Qed.

Lemma stands_nonempty f v : stands_for f v -> f <> [].
Proof. intros (a & b & c & D & _). eapply decimal_nonempty; eauto. Qed.

(** ** Rounding does not merge numbers of fifteen digits *)

Lemma big_power : 10 ^ 300 = IZR (10 ^ 300).
Proof. rewrite pow_IZR. apply f_equal. vm_compute. reflexivity. Qed.

Lemma big_overflow : 10 ^ 300 < double_overflow.
Proof.
  unfold double_overflow. rewrite !powerRZ_bpow. rewrite big_power.
  rewrite <- !(IZR_Zpower radix2) by lia. rewrite <- minus_IZR. apply IZR_lt. vm_compute. reflexivity.
Qed.

Lemma small_normal : bpow radix2 (-1022) <= / 10 ^ 300.
Proof.
  change (-1022)%Z with (- (1022))%Z. rewrite bpow_opp. apply Rinv_le.
  - apply pow_lt. lra.
  - rewrite <- (IZR_Zpower radix2) by lia. rewrite big_power.
    apply IZR_le. apply Z.leb_le. vm_compute. reflexivity.
Qed.

Lemma nearest_bounded v : Rabs v <= 10 ^ 300 -> Rabs (rnd v) < bpow radix2 1024.
Proof.
  intros U. assert (S : exists neg, v = signed neg (Rabs v)).
  { destruct (Rcase_abs v) as [H|H]; [exists true|exists false]; cbn; [rewrite Rabs_left by lra; lra|rewrite Rabs_right by lra; reflexivity]. }
  destruct S as (neg & E). rewrite E. rewrite rnd_signed, Rabs_signed by (apply rnd_nonneg, Rabs_pos).
  apply rnd_overflow; [apply Rabs_pos|]. pose proof big_overflow. lra.
Qed.

Lemma relative_error v x : nearest v x -> / 10 ^ 300 <= Rabs v <= 10 ^ 300 -> Rabs (real_of x - v) <= Rabs v * / 9007199254740992.
Proof.
  intros N [L U]. pose proof (nearest_bounded v U) as B.
  rewrite (nearest_is_rnd _ _ N B). unfold rnd.
  eapply Rle_trans; [apply (error_le_half_ulp radix2 fexp64); apply FLT_exp_valid; exact prec53|].
  pose proof (ulp_FLT_le radix2 (-1074) 53 v) as H. change (-1074 + 53 - 1)%Z with (-1022)%Z in H.
  specialize (H ltac:(pose proof small_normal; lra)).
  change (ulp radix2 fexp64 v) with (ulp radix2 (FLT_exp (-1074) 53) v).
  assert (E : bpow radix2 (1 - 53) = 2 * / 9007199254740992).
  { change (bpow radix2 (1 - 53)) with (/ IZR (2 ^ 52)). change (2 ^ 52)%Z with 4503599627370496%Z. field. }
  rewrite E in H. lra.
Qed.

Lemma powerRZ_nonneg_shift n e f : (f <= e)%Z ->
  decimal_size n e = IZR (Z.of_N n * 10 ^ (e - f)) * powerRZ 10 f.
Proof.
  intros L. unfold decimal_size. rewrite mult_IZR. replace e with ((e - f) + f)%Z at 1 by lia.
  rewrite powerRZ_add by lra. replace (powerRZ 10 (e - f)) with (IZR (10 ^ (e - f))); [ring|].
  assert (Hz : (0 <= e - f)%Z) by lia. rewrite <- (Z2Nat.id (e - f) Hz), <- pow_IZR, <- pow_powerRZ. reflexivity.
Qed.

(** Different integers below a common power of ten, one of at most fifteen digits. *)
Lemma integers_apart (a b : Z) : (0 <= a < 10 ^ 15)%Z -> (0 <= b)%Z -> a <> b ->
  IZR a + IZR b < Rabs (IZR a - IZR b) * 9007199254740992.
Proof.
  intros A B N. rewrite <- minus_IZR, <- abs_IZR, <- plus_IZR, <- mult_IZR. apply IZR_lt.
  change (10 ^ 15)%Z with 1000000000000000%Z in A. lia.
Qed.

Lemma sizes_apart m k m' k' : (m < 10 ^ 15)%N -> (m' < 10 ^ 15)%N -> decimal_size m k <> decimal_size m' k' ->
  decimal_size m k + decimal_size m' k' < Rabs (decimal_size m k - decimal_size m' k') * 9007199254740992.
Proof.
  assert (G : forall m k m' k', (m < 10 ^ 15)%N -> (k <= k')%Z -> decimal_size m k <> decimal_size m' k' ->
    decimal_size m k + decimal_size m' k' < Rabs (decimal_size m k - decimal_size m' k') * 9007199254740992).
  { clear. intros m k m' k' Hm L N. rewrite (powerRZ_nonneg_shift m' k' k L) in *.
    rewrite (powerRZ_nonneg_shift m k k) in * by lia. rewrite Z.sub_diag, Z.pow_0_r, Z.mul_1_r in *.
    set (b := (Z.of_N m' * 10 ^ (k' - k))%Z) in *. assert (P : 0 < powerRZ 10 k) by (apply powerRZ_lt; lra).
    assert (B : (0 <= b)%Z) by (apply Z.mul_nonneg_nonneg; [lia|apply Z.pow_nonneg; lia]).
    assert (D : Z.of_N m <> b) by (intros E; apply N; now rewrite E).
    pose proof (integers_apart (Z.of_N m) b ltac:(change (10 ^ 15)%Z with 1000000000000000%Z; change (10 ^ 15)%N with 1000000000000000%N in Hm; lia) B D) as I.
    rewrite <- !Rmult_minus_distr_r, <- Rmult_plus_distr_r, Rabs_mult, (Rabs_pos_eq (powerRZ 10 k)) by lra.
    replace (Rabs (IZR (Z.of_N m) - IZR b) * powerRZ 10 k * 9007199254740992) with (Rabs (IZR (Z.of_N m) - IZR b) * 9007199254740992 * powerRZ 10 k) by ring.
    now apply Rmult_lt_compat_r. }
  intros Hm Hm' N. destruct (Z.le_ge_cases k k') as [L|L]; [now apply G|].
  rewrite Rplus_comm, Rabs_minus_sym. apply G; auto.
Qed.

(** What reading a clear numeral gives. *)
Lemma fifteen_reads f x : fifteen_digits f -> reads_double f x ->
  exists v m k, stands_for f v /\ nearest v x /\ (0 < v -> negative x = false) /\ (v < 0 -> negative x = true) /\
    Rabs v = decimal_size m k /\ (m < 10 ^ 15)%N /\ (v = 0 \/ / 10 ^ 300 <= Rabs v <= 10 ^ 300).
Proof.
  intros (v & m & k & S & E & M & R) X. pose proof S as (neg & n & e & D & Ev). pose proof (decimal_size_nonneg n e) as Hp.
  assert (A : Rabs v = decimal_size n e) by (rewrite Ev; now apply (Rabs_signed neg)).
  assert (L : decimal_size n e < double_overflow).
  { pose proof big_overflow. assert (1 <= 10 ^ 300) by (apply pow_R1_Rle; lra). destruct R as [R|R]; [rewrite R, Rabs_R0 in A|]; lra. }
  destruct (f64_of_dec_nearest neg n e L) as [N1 N2].
  assert (Y : reads_double f (f64_of_dec neg n e)) by (eapply reads_decimal; eauto).
  assert (x = f64_of_dec neg n e) as -> by (apply parse_f64_reads in X, Y; congruence).
  exists v, m, k. split; [exact S|]. split; [now rewrite Ev|]. rewrite N2. repeat (split; [|auto]).
  - intros P. destruct neg; [lra|reflexivity].
  - intros P. destruct neg; [reflexivity|lra].
Qed.

Lemma real_zero x : finite x -> real_of x = 0 -> exists s, x = S754_zero s.
Proof.
  destruct x as [s|s| |s m e]; intros F; try destruct F; [eauto|]. intros E. exfalso. revert E. cbn [real_of].
  assert (0 < powerRZ 2 e) by (apply powerRZ_lt; lra). intros E. apply Rmult_integral in E as [E|E]; [|lra].
  destruct s; [apply Ropp_eq_0_compat in E; rewrite Ropp_involutive in E|]; apply eq_IZR in E; discriminate.
Qed.

Lemma same_number_real x y : same_number x y -> real_of x = real_of y.
Proof. now intros []. Qed.

Lemma real_same_number x y : finite x -> finite y -> proper x -> proper y -> real_of x = real_of y -> same_number x y.
Proof.
  intros Fx Fy Px Py E. destruct (Req_dec (real_of x) 0) as [Z|Z].
  - destruct (real_zero x Fx Z) as (a & ->). rewrite Z in E. destruct (real_zero y Fy (eq_sym E)) as (b & ->). constructor.
  - assert (negative x = negative y).
    { destruct x as [s|s| |s m e]; try destruct Fx; [now destruct Z|]. destruct y as [s'|s'| |s' m' e']; try destruct Fy; [now rewrite E in Z|].
      cbn [negative]. cbn [real_of] in E.
      assert (0 < powerRZ 2 e) by (apply powerRZ_lt; lra). assert (0 < powerRZ 2 e') by (apply powerRZ_lt; lra).
      assert (0 < IZR (Z.pos m)) by now apply IZR_lt. assert (0 < IZR (Z.pos m')) by now apply IZR_lt.
      assert (0 < IZR (Z.pos m) * powerRZ 2 e) by now apply Rmult_lt_0_compat.
      assert (0 < IZR (Z.pos m') * powerRZ 2 e') by now apply Rmult_lt_0_compat. destruct s, s'; try reflexivity; lra. }
    rewrite (real_of_inj x y) by assumption. destruct y; try destruct Fy; constructor.
Qed.

Lemma nearest_zero x : nearest 0 x -> real_of x = 0.
Proof. intros N. rewrite (nearest_is_rnd _ _ N), rnd_0; [reflexivity|]. rewrite rnd_0, Rabs_R0. apply bpow_gt_0. Qed.



(** A double that is nearest to a number of fifteen digits. *)
Definition clear_pair (v : R) (x : f64) : Prop :=
  nearest v x /\ exists m k, Rabs v = decimal_size m k /\ (m < 10 ^ 15)%N /\ (v = 0 \/ / 10 ^ 300 <= Rabs v <= 10 ^ 300).

Lemma clear_error v x : clear_pair v x -> Rabs v <= 10 ^ 300 /\ Rabs (real_of x - v) <= Rabs v * / 9007199254740992.
Proof.
  intros (N & m & k & A & M & R). assert (T : 1 <= 10 ^ 300) by (apply pow_R1_Rle; lra).
  destruct R as [-> |R]; [|split; [lra|now apply relative_error]].
  rewrite (nearest_zero _ N), Rminus_0_r, Rabs_R0. lra.
Qed.

(** Two such doubles are the same (up to the sign of zero) exactly if the numbers are. *)
Lemma clear_same v x w y : clear_pair v x -> clear_pair w y -> (same_number x y <-> v = w).
Proof.
  intros P Q. destruct (clear_error _ _ P) as [Bv Ev], (clear_error _ _ Q) as [Bw Ew].
  destruct P as (N & m & k & A & M & _), Q as (N' & m' & k' & A' & M' & _). split.
  - intros E. apply same_number_real in E. rewrite E in Ev. destruct (Req_dec v w) as [|D]; [assumption|exfalso].
    assert (C : Rabs v + Rabs w < Rabs (v - w) * 9007199254740992).
    { destruct (Req_dec (Rabs v) (Rabs w)) as [O|O].
      - assert (w = - v) as -> by (revert O; unfold Rabs; destruct (Rcase_abs v), (Rcase_abs w); lra).
        rewrite Rabs_Ropp. replace (v - - v) with (2 * v) by lra. rewrite Rabs_mult, (Rabs_pos_eq 2) by lra.
        assert (0 < Rabs v) by (apply Rabs_pos_lt; lra). lra.
      - rewrite A, A' in O. pose proof (sizes_apart m k m' k' M M' O) as C. rewrite <- A, <- A' in C.
        pose proof (Rabs_triang_inv2 v w). lra. }
    assert (Rabs (v - w) <= Rabs (real_of y - v) + Rabs (real_of y - w)).
    { replace (v - w) with ((real_of y - w) + - (real_of y - v)) by lra. eapply Rle_trans; [apply Rabs_triang|]. rewrite Rabs_Ropp. lra. }
    lra.
  - intros <-. apply real_same_number; try apply N; try apply N'.
    now rewrite (nearest_is_rnd _ _ N), (nearest_is_rnd _ _ N') by now apply nearest_bounded.
Qed.

Lemma clear_neg v x : clear_pair v x -> clear_pair (- v) (f64_neg x).
Proof.
  intros P. destruct (clear_error _ _ P) as [B _]. destruct P as (N & m & k & A & M & R). split.
  - apply nearest_rnd; [apply f64_neg_finite, N|apply f64_neg_proper, N|].
    rewrite f64_neg_real, (nearest_is_rnd _ _ N), rnd_opp by now apply nearest_bounded. reflexivity.
  - exists m, k. rewrite Rabs_Ropp. repeat split; auto. destruct R as [-> |R]; [left; apply Ropp_0|now right].
Qed.

Lemma fifteen_pair f x v : fifteen_digits f -> reads_double f x -> stands_for f v -> clear_pair v x.
Proof.
  intros C X S. destruct (fifteen_reads f x C X) as (v' & m & k & S' & N & _ & _ & A & M & R).
  rewrite (stands_unique _ _ _ S' S) in *. split; [exact N|]. eauto.
Qed.

Lemma fifteen_stands f : fifteen_digits f -> exists v, stands_for f v.
Proof. intros (v & m & k & S & _). eauto. Qed.

Lemma fifteen_nonempty f : fifteen_digits f -> f <> [].
Proof. intros C. destruct (fifteen_stands f C) as (v & S). eapply stands_nonempty; eauto. Qed.

Lemma fifteen_readable f : fifteen_digits f -> exists x, reads_double f x.
Proof.
  intros (v & m & k & (neg & n & e & D & E) & _). destruct (Rlt_or_le (decimal_size n e) double_overflow) as [L|L].
  - destruct (f64_of_dec_nearest neg n e L) as [N1 N2]. exists (f64_of_dec neg n e). eapply reads_decimal; eauto.
  - exists (S754_infinity neg). eapply reads_overflow; eauto.
Qed.

(** ** The data one by one *)

(** An attribute that is given exactly if its field is not empty, with a number and a double. *)
Lemma attribute_same f g (mf mg : R -> Prop) (o o' : option f64) :
  (f = [] /\ o = None \/ f <> [] /\ exists x v, o = Some x /\ mf v /\ clear_pair v x) -> (forall v w, mf v -> mf w -> v = w) ->
  (g = [] /\ o' = None \/ g <> [] /\ exists x v, o' = Some x /\ mg v /\ clear_pair v x) -> (forall v w, mg v -> mg w -> v = w) ->
  (f = [] -> forall v, ~ mf v) ->
  same_attribute o o' <-> both_or_none f g mf mg.
Proof.
  intros [(Ef & ->)|(Nf & x & v & -> & V & P)] Uf [(Eg & ->)|(Ng & y & w & -> & W & Q)] Ug Em; unfold both_or_none.
  - split; [intros _; split; [tauto|]|constructor]. intros v w V. now destruct (Em Ef v).
  - split; [intros E; inversion E|intros [H _]; tauto].
  - split; [intros E; inversion E|intros [H _]; tauto].
  - split.
    + intros E. inversion E as [|a b S]; subst. apply (clear_same _ _ _ _ P Q) in S as ->. split; [tauto|].
      intros v' w' V' W'. now rewrite (Uf _ _ V' V), (Ug _ _ W' W).
    + intros [_ H]. constructor. apply (clear_same _ _ _ _ P Q). now apply H.
Qed.

Lemma number_shape f o : f = [] \/ fifteen_digits f -> lenient_value reads_double f o ->
  f = [] /\ o = None \/ f <> [] /\ exists x v, o = Some x /\ stands_for f v /\ clear_pair v x.
Proof.
  intros C L. destruct L as [[E|E]|x N X].
  - now left.
  - destruct C as [C|C]; [now left|]. destruct (fifteen_readable f C) as (x & X). now destruct (E x).
  - right. split; [exact N|]. destruct C as [C|C]; [now destruct N|]. destruct (fifteen_stands f C) as (v & S).
    exists x, v. split; [reflexivity|]. split; [exact S|]. now apply (fifteen_pair f).
Qed.

Lemma number_same_attribute f g o o' : f = [] \/ fifteen_digits f -> g = [] \/ fifteen_digits g ->
  lenient_value reads_double f o -> lenient_value reads_double g o' ->
  (same_attribute o o' <-> both_or_none f g (stands_for f) (stands_for g)).
Proof.
  intros Cf Cg Lf Lg. apply attribute_same; try (now apply number_shape); try (intros; eapply stands_unique; eauto).
  intros -> v S. now apply stands_nonempty in S.
Qed.

Lemma field_lenient {A} (means : str -> A -> Prop) f o : field_value means f o -> lenient_value means f o.
Proof. intros [E|v N V]; [apply lenient_none; now left|now apply lenient_some]. Qed.

Lemma sided_unique side f v w : sided side f v -> sided side f w -> v = w.
Proof.
  intros (u & S & [[E ->]|[E ->]]) (u' & S' & [[E' ->]|[E' ->]]); rewrite (stands_unique _ _ _ S S'); try reflexivity;
    rewrite E in E'; discriminate.
Qed.

Lemma sided_shape side f o : f = [] \/ fifteen_digits f -> field_value (variation side) f o ->
  f = [] /\ o = None \/ f <> [] /\ exists x v, o = Some x /\ sided side f v /\ clear_pair v x.
Proof.
  intros C [E|x N (y & Y & S)]; [now left|]. right. split; [exact N|]. destruct C as [C|C]; [now destruct N|].
  destruct (fifteen_stands f C) as (v & V). pose proof (fifteen_pair f y v C Y V) as P.
  destruct S as [[E ->]|[E ->]].
  - exists y, v. split; [reflexivity|]. split; [exists v; auto|exact P].
  - exists (f64_neg y), (- v). split; [reflexivity|]. split; [exists v; auto|now apply clear_neg].
Qed.

Lemma sided_same_attribute side side' f g o o' : f = [] \/ fifteen_digits f -> g = [] \/ fifteen_digits g ->
  field_value (variation side) f o -> field_value (variation side') g o' ->
  (same_attribute o o' <-> both_or_none f g (sided side f) (sided side' g)).
Proof.
  intros Cf Cg Lf Lg. apply attribute_same; try (now apply sided_shape); try (intros; eapply sided_unique; eauto).
  intros -> v (u & S & _). now apply stands_nonempty in S.
Qed.

(** *** Angles *)

Lemma angle_written_unique n minus h f v w : angle_written n minus h f v -> angle_written n minus h f w -> v = w.
Proof.
  intros (d & m & D & A & B) (d' & m' & D' & A' & B'). destruct (degrees_minutes_unique _ _ _ _ _ _ D D') as [<- <-].
  destruct (str_eqb_spec h minus) as [E|E]; [rewrite (A E), (A' E)|rewrite (B E), (B' E)]; reflexivity.
Qed.

(** A sign, as a factor. *)
Definition side_factor (h minus : str) : R := if str_eqb h minus then -1 else 1.

Lemma side_factor_cases h minus : side_factor h minus = 1 \/ side_factor h minus = -1.
Proof. unfold side_factor. destruct (str_eqb h minus); auto. Qed.

Lemma angle_written_factor n minus h f d m : degrees_minutes n f d m ->
  angle_written n minus h f (side_factor h minus * (IZR (Z.of_N d) + m / 60)).
Proof.
  intros D. exists d, m. split; [exact D|]. unfold written_angle, side_factor. destruct (str_eqb_spec h minus); split; intros; try tauto; lra.
Qed.

Lemma angle_shape n minus h f x : (n <= 3)%nat -> nine_decimals n f -> angle n minus h f x ->
  exists d m k, degrees_minutes n f d m /\ m < 60 /\ m * 10 ^ 9 = IZR (Z.of_N k) /\ (d < 1000)%N /\ 0 <= m /\ finite x /\ proper x /\
    real_of x = side_factor h minus * rnd (IZR (Z.of_N d) + rnd (rnd m / 60)).
Proof.
  intros Hn (d & m & k & D & L & K) (d' & m' & m1 & q & y & D' & N1 & N2 & N3 & S & Hm & Hp).
  destruct (degrees_minutes_unique _ _ _ _ _ _ D D') as [<- <-]. destruct (degrees_minutes_bound _ _ _ _ Hn D) as [B1 B2].
  pose proof (angle_steps d m m1 q y B1 B2 N1 N2 N3) as E. exists d, m, k. unfold side_factor.
  destruct (str_eqb_spec h minus) as [H|H]; [rewrite (Hm H)|rewrite (Hp H)].
  - rewrite f64_neg_real, E. split; [exact D|]. repeat (split; [tauto|]). split; [apply f64_neg_finite, N3|]. split; [apply f64_neg_proper, N3|lra].
  - rewrite E. split; [exact D|]. repeat (split; [tauto|]). split; [apply N3|]. split; [apply N3|lra].
Qed.

Lemma whole_gap a b : Rabs (IZR a - IZR b) < 1 -> a = b.
Proof. rewrite <- minus_IZR, <- abs_IZR. intros H. apply lt_IZR in H. lia. Qed.

Lemma angles_same n minus h h' f g x y v w : (n <= 3)%nat -> nine_decimals n f -> nine_decimals n g ->
  angle n minus h f x -> angle n minus h' g y -> angle_written n minus h f v -> angle_written n minus h' g w ->
  (same_number x y <-> v = w).
Proof.
  intros Hn Cf Cg X Y V W.
  destruct (angle_shape _ _ _ _ _ Hn Cf X) as (d & m & k & D & L & K & B & P & Fx & Px & Ex).
  destruct (angle_shape _ _ _ _ _ Hn Cg Y) as (d' & m' & k' & D' & L' & K' & B' & P' & Fy & Py & Ey).
  rewrite (angle_written_unique _ _ _ _ _ _ V (angle_written_factor n minus h f d m D)).
  rewrite (angle_written_unique _ _ _ _ _ _ W (angle_written_factor n minus h' g d' m' D')).
  pose proof (angle_error d m B ltac:(lra)) as E1. pose proof (angle_error d' m' B' ltac:(lra)) as E2.
  assert (Q : IZR (Z.of_N d) + m / 60 = IZR (Z.of_N d * 60000000000 + Z.of_N k) * / 60000000000).
  { rewrite plus_IZR, mult_IZR, <- K. field. }
  assert (Q' : IZR (Z.of_N d') + m' / 60 = IZR (Z.of_N d' * 60000000000 + Z.of_N k') * / 60000000000).
  { rewrite plus_IZR, mult_IZR, <- K'. field. }
  assert (T : / 10 ^ 12 = / 1000000000000) by (f_equal; lra).
  assert (KB : (Z.of_N k < 60000000000)%Z) by (apply lt_IZR; rewrite <- K; lra).
  assert (KB' : (Z.of_N k' < 60000000000)%Z) by (apply lt_IZR; rewrite <- K'; lra).
  assert (I : IZR (Z.of_N d * 60000000000 + Z.of_N k) = IZR (Z.of_N d' * 60000000000 + Z.of_N k') -> d = d' /\ m = m').
  { intros I. apply eq_IZR in I. assert (d = d' /\ k = k') as [-> ->] by lia. split; [reflexivity|]. lra. }
  split.
  - intros S. apply same_number_real in S. rewrite Ex, Ey in S. rewrite Q, Q' in *. rewrite T in E1, E2.
    set (a := rnd _) in *. set (b := rnd (IZR (Z.of_N d') + _)) in *. clearbody a b. apply Rabs_le_inv in E1, E2.
    set (u := (Z.of_N d * 60000000000 + Z.of_N k)%Z) in *. set (u' := (Z.of_N d' * 60000000000 + Z.of_N k')%Z) in *.
    destruct (side_factor_cases h minus) as [F|F], (side_factor_cases h' minus) as [F'|F']; rewrite F, F' in *.
    + assert (u = u') as -> by (apply whole_gap; apply Rabs_def1; lra). reflexivity.
    + assert (u = - u')%Z as -> by (apply whole_gap; rewrite opp_IZR; apply Rabs_def1; lra). rewrite opp_IZR. lra.
    + assert (u = - u')%Z as -> by (apply whole_gap; rewrite opp_IZR; apply Rabs_def1; lra). rewrite opp_IZR. lra.
    + assert (u = u') as -> by (apply whole_gap; apply Rabs_def1; lra). reflexivity.
  - intros E. apply real_same_number; auto. rewrite Ex, Ey.
    destruct (Req_dec (side_factor h minus) (side_factor h' minus)) as [F|F].
    + rewrite F in *. assert (d = d' /\ m = m') as [-> ->]; [|reflexivity]. apply I. rewrite Q, Q' in E.
      destruct (side_factor_cases h' minus) as [F'|F']; rewrite F' in E; lra.
    + assert (IZR (Z.of_N d) + m / 60 = 0 /\ IZR (Z.of_N d') + m' / 60 = 0) as [Z1 Z2].
      { assert (0 <= IZR (Z.of_N d)) by (apply IZR_le; lia). assert (0 <= IZR (Z.of_N d')) by (apply IZR_le; lia).
        destruct (side_factor_cases h minus) as [G|G], (side_factor_cases h' minus) as [G'|G']; rewrite G, G' in *; lra. }
      assert (0 <= IZR (Z.of_N d)) by (apply IZR_le; lia). assert (0 <= IZR (Z.of_N d')) by (apply IZR_le; lia).
      assert (m = 0) as -> by lra. assert (m' = 0) as -> by lra. assert (IZR (Z.of_N d) = 0) as -> by lra. assert (IZR (Z.of_N d') = 0) as -> by lra.
      assert (Z0 : rnd (0 + rnd (rnd 0 / 60)) = 0).
      { rewrite rnd_0. replace (0 / 60) with 0 by lra. now rewrite rnd_0, Rplus_0_l, rnd_0. }
      rewrite Z0. lra.
Qed.

Lemma angle_same_attribute n minus h h' f g o o' : (n <= 3)%nat -> f = [] \/ nine_decimals n f -> g = [] \/ nine_decimals n g ->
  field_value (angle n minus h) f o -> field_value (angle n minus h') g o' ->
  (same_attribute o o' <-> both_or_none f g (angle_written n minus h f) (angle_written n minus h' g)).
Proof.
  intros Hn Cf Cg [Ef|x Nf X] [Eg|y Ng Y]; unfold both_or_none.
  - split; [intros _; split; [tauto|]|constructor]. intros v w (d & m & D & _). now apply degrees_nonempty in D.
  - split; [intros E; inversion E|intros [H _]; tauto].
  - split; [intros E; inversion E|intros [H _]; tauto].
  - destruct Cf as [Cf|Cf], Cg as [Cg|Cg]; try contradiction. split.
    + intros E. inversion E as [|a b S]; subst. split; [tauto|]. intros v w V W. now apply (angles_same n minus h h' f g x y v w).
    + intros [_ H]. constructor. destruct Cf as (d & m & k & D & R), Cg as (d' & m' & k' & D' & R').
      pose proof (angle_written_factor n minus h f d m D) as V. pose proof (angle_written_factor n minus h' g d' m' D') as W.
      eapply (angles_same n minus h h' f g x y); eauto; [exists d, m, k; auto|exists d', m', k'; auto].
Qed.

Open Scope N_scope.

(** *** The others *)

Lemma time_same_stamp now f g o o' : time_stamp now f o -> time_stamp now g o' ->
  (o = o' <-> forall t, time_text f t <-> time_text g t).
Proof.
  assert (C : forall f o, time_stamp now f o -> exists t, time_text f t /\ o = option_map (fun '(h, m, s) => today now h m s) t).
  { clear. intros f o [T|h m s T V]; [now exists None|now exists (Some (h, m, s))]. }
  intros F G. destruct (C f o F) as (t & T & ->), (C g o' G) as (t' & T' & ->). split.
  - intros E. assert (t' = t) as ->.
    { destruct t as [[[h m] s]|], t' as [[[h' m'] s']|]; try discriminate; [|reflexivity]. unfold today in E. cbn [option_map] in E.
      injection E as -> -> ->. reflexivity. }
    intros u. split; intros X; [rewrite (time_text_unique _ _ _ X T)|rewrite (time_text_unique _ _ _ X T')]; assumption.
  - intros H. apply H in T. now rewrite (time_text_unique _ _ _ T T').
Qed.

Lemma signed_unique f y z : (List.length f <= 2)%nat -> signed_number f y -> signed_number f z -> y = z.
Proof. intros L A B. apply (parse_i32_short f _ L) in A, B. congruence. Qed.

Lemma date_numbers_unique fd ft d mo y h mi s d' mo' y' h' mi' s' :
  date_time_numbers fd ft d mo y h mi s -> date_time_numbers fd ft d' mo' y' h' mi' s' ->
  (d, mo, y, h, mi, s) = (d', mo', y', h', mi', s').
Proof.
  intros (A1 & A2 & A3 & A4 & A5 & A6) (B1 & B2 & B3 & B4 & B5 & B6).
  rewrite (denotes_unique _ _ _ A1 B1), (denotes_unique _ _ _ A2 B2), (denotes_unique _ _ _ A4 B4), (denotes_unique _ _ _ A5 B5),
    (denotes_unique _ _ _ A6 B6), (signed_unique _ _ _ (firstn_le_length _ _) A3 B3). reflexivity.
Qed.

Lemma date_same_stamp now fd ft gd gt o o' : date_time_stamp now fd ft o -> date_time_stamp now gd gt o' ->
  (o = o' <-> forall d mo y h mi s, date_time_numbers fd ft d mo y h mi s <-> date_time_numbers gd gt d mo y h mi s).
Proof.
  intros F G. split.
  - intros E. destruct F as [T|d mo y h mi s T Y D V], G as [T'|d' mo' y' h' mi' s' T' Y' D' V']; try discriminate.
    + intros d mo y h mi s. split; intros X; [now apply T in X|now apply T' in X].
    + assert (C : (d, mo, y, h, mi, s) = (d', mo', y', h', mi', s')).
      { injection E as E1 -> -> -> -> ->. assert (y = y') as -> by lia. reflexivity. }
      injection C as <- <- <- <- <- <-.
      intros a b c e k l. split; intros X; [pose proof (date_numbers_unique _ _ _ _ _ _ _ _ _ _ _ _ _ _ X T) as Q|
        pose proof (date_numbers_unique _ _ _ _ _ _ _ _ _ _ _ _ _ _ X T') as Q]; injection Q as -> -> -> -> -> ->; assumption.
  - intros H. destruct F as [T|d mo y h mi s T Y D V], G as [T'|d' mo' y' h' mi' s' T' Y' D' V'].
    + reflexivity.
    + apply H in T'. now apply T in T'.
    + apply H in T. now apply T' in T.
    + apply H in T. pose proof (date_numbers_unique _ _ _ _ _ _ _ _ _ _ _ _ _ _ T T') as Q. now injection Q as -> -> -> -> -> ->.
Qed.

Lemma count_same max f g o o' : field_value (number_text max) f o -> field_value (number_text max) g o' ->
  (o = o' <-> forall v, denotes f v <-> denotes g v).
Proof.
  intros F G. split.
  - intros <-. inversion F as [E X|v N [V _] X]; subst; inversion G as [E' X'|v' N' [V' _] X']; subst; [reflexivity|].
    intros w. split; intros W; [rewrite (denotes_unique _ _ _ W V)|rewrite (denotes_unique _ _ _ W V')]; assumption.
  - intros H. destruct F as [E|v N [V _]], G as [E'|v' N' [V' _]]; [reflexivity|..].
    + apply H in V'. subst f. now apply denotes_nonempty in V'.
    + apply H in V. subst g. now apply denotes_nonempty in V.
    + apply H in V. now rewrite (denotes_unique _ _ _ V V').
Qed.

Lemma quality_same f g q q' : field_value (number_text 255) f q -> field_value (number_text 255) g q' ->
  (quality q = quality q' <-> forall k, 1 <= k <= 8 -> (denotes f k <-> denotes g k)).
Proof.
  intros F G.
  assert (C : forall f q, field_value (number_text 255) f q -> forall k, 1 <= k <= 8 -> (denotes f k <-> quality q = nth (N.to_nat k) qualities QInvalid)).
  { clear. intros f q F k K.
    assert (Inj : forall a b, 1 <= a <= 8 -> nth (N.to_nat b) qualities QInvalid = nth (N.to_nat a) qualities QInvalid -> b = a).
    { clear. intros a b A E. destruct (N.le_gt_cases b 8) as [L|L].
      - assert (Ha : In a [1;2;3;4;5;6;7;8]) by (cbn [In]; lia). assert (Hb : In b [0;1;2;3;4;5;6;7;8]) by (cbn [In]; lia).
        cbn [In] in Ha, Hb. repeat (destruct Ha as [Ha|Ha]); subst; try contradiction; repeat (destruct Hb as [Hb|Hb]); subst; try contradiction; try reflexivity; discriminate.
      - exfalso. rewrite (nth_overflow qualities) in E by (cbn; lia).
        assert (Ha : In a [1;2;3;4;5;6;7;8]) by (cbn [In]; lia). cbn [In] in Ha. repeat (destruct Ha as [Ha|Ha]); subst; try contradiction; discriminate. }
    destruct F as [E|v N [V B]]; cbn [quality].
    - split; [intros D; subst f; now apply denotes_nonempty in D|]. intros E'. change QInvalid with (nth (N.to_nat 0) qualities QInvalid) in E' at 1. apply Inj in E'; lia.
    - split; [intros D; now rewrite (denotes_unique _ _ _ V D)|]. intros E. apply Inj in E as ->; [exact V|exact K]. }
  split.
  - intros E k K. rewrite (C f q F k K), (C g q' G k K), E. reflexivity.
  - intros H.
    assert (Cov : forall o, quality o = QInvalid \/ exists k, 1 <= k <= 8 /\ quality o = nth (N.to_nat k) qualities QInvalid).
    { intros [v|]; [|now left]. cbn [quality]. destruct (N.eq_dec v 0) as [-> |N0]; [now left|]. destruct (N.le_gt_cases v 8) as [L|L]; [right; exists v; split; [lia|reflexivity]|].
      left. apply nth_overflow. cbn. lia. }
    destruct (Cov q) as [Q|(k & K & Q)].
    + destruct (Cov q') as [Q'|(k & K & Q')]; [congruence|]. apply (C g q' G k K), (H k K), (C f q F k K) in Q'. 
      rewrite Q'. symmetry. apply (C g q' G k K). apply H; [exact K|]. now apply (C f q F k K).
    + rewrite Q. symmetry. apply (C g q' G k K). apply H; [exact K|]. now apply (C f q F k K).
Qed.

Lemma words_same {X} (table : list (str * X)) f g o o' : NoDup (map fst table) -> NoDup (map snd table) ->
  ~ In [] (map fst table) ->
  lenient_value (word table) f o -> lenient_value (word table) g o' ->
  (o = o' <-> forall l, In l (map fst table) -> (f = l <-> g = l)).
Proof.
  intros U U' Ne F G.
  assert (I1 : forall w v v', In (w, v) table -> In (w, v') table -> v = v').
  { clear - U. intros w v v' A B. induction table as [|[k x] t IH]; [destruct A|]. cbn in U. inversion U as [|? ? Hn U2]; subst.
    destruct A as [A|A], B as [B|B]; [congruence|..].
    - injection A as -> ->. destruct Hn. apply (in_map fst) in B. exact B.
    - injection B as -> ->. destruct Hn. apply (in_map fst) in A. exact A.
    - now apply IH. }
  assert (I2 : forall w w' v, In (w, v) table -> In (w', v) table -> w = w').
  { clear - U'. intros w w' v A B. induction table as [|[k x] t IH]; [destruct A|]. cbn in U'. inversion U' as [|? ? Hn U2]; subst.
    destruct A as [A|A], B as [B|B]; [congruence|..].
    - injection A as -> ->. destruct Hn. apply (in_map snd) in B. exact B.
    - injection B as -> ->. destruct Hn. apply (in_map snd) in A. exact A.
    - now apply IH. }
  assert (No : forall f, f = [] \/ (forall v, ~ word table f v) -> forall l, In l (map fst table) -> f <> l).
  { intros h Hh l L E. subst h. apply in_map_iff in L as ((k & v) & E & L). cbn in E. subst k. destruct Hh as [-> |Hh].
    - apply Ne. apply in_map_iff. exists ([], v). auto.
    - now apply (Hh v). }
  split.
  - intros <-. inversion F as [E E0|v N V E0]; subst; inversion G as [E' E1|v' N' V' E1]; subst.
    + intros l L. split; intros Q; [now apply (No f E l L) in Q|now apply (No g E' l L) in Q].
    + unfold word in V, V'. rewrite (I2 _ _ _ V V'). reflexivity.
  - intros H. destruct F as [E|v N V], G as [E'|v' N' V']; [reflexivity|..].
    + exfalso. assert (L : In g (map fst table)) by (apply in_map_iff; now exists (g, v')). apply (No f E g L). now apply (H g L).
    + exfalso. assert (L : In f (map fst table)) by (apply in_map_iff; now exists (f, v)). apply (No g E' f L). now apply (H f L).
    + assert (L : In f (map fst table)) by (apply in_map_iff; now exists (f, v)). assert (g = f) as -> by now apply (H f L).
      unfold word in V, V'. now rewrite (I1 _ _ _ V V').
Qed.

Lemma numbers_unique fs l l' : numbers_in fs l -> numbers_in fs l' -> l = l'.
Proof.
  intros H. revert l'. induction H as [|fs l _ IH|f fs v l N [V _] _ IH]; intros l' H'; inversion H' as [|? ? R|? ? v' ? N' [V' _] R]; subst; auto.
  - now destruct N'.
  - now destruct N.
  - rewrite (denotes_unique _ _ _ V V'). f_equal. now apply IH.
Qed.

Lemma counts_same fs gs l l' : numbers_in fs l -> numbers_in gs l' -> (l = l' <-> forall k, numbers_in fs k <-> numbers_in gs k).
Proof.
  intros F G. split.
  - intros <- k. split; intros H; [rewrite (numbers_unique _ _ _ H F)|rewrite (numbers_unique _ _ _ H G)]; assumption.
  - intros H. apply H in F. eapply numbers_unique; eauto.
Qed.

(** ** Reports *)

Lemma statuses_nodup : NoDup (map fst statuses) /\ NoDup (map snd statuses) /\ ~ In [] (map fst statuses).
Proof. cbn. repeat split; repeat constructor; cbn; intuition discriminate. Qed.
Lemma selection_nodup : NoDup (map fst selection_modes) /\ NoDup (map snd selection_modes) /\ ~ In [] (map fst selection_modes).
Proof. cbn. repeat split; repeat constructor; cbn; intuition discriminate. Qed.
Lemma fixes_nodup : NoDup (map fst fix_modes) /\ NoDup (map snd fix_modes) /\ ~ In [] (map fst fix_modes).
Proof. cbn. repeat split; repeat constructor; cbn; intuition discriminate. Qed.
Lemma faa_nodup : NoDup (map fst faa_modes) /\ NoDup (map snd faa_modes) /\ ~ In [] (map fst faa_modes).
Proof. cbn. repeat split; repeat constructor; cbn; intuition discriminate. Qed.

Lemma letters_same {X} (table : list (str * X)) f g o o' :
  NoDup (map fst table) /\ NoDup (map snd table) /\ ~ In [] (map fst table) ->
  lenient_value (word table) f o -> lenient_value (word table) g o' ->
  (o = o' <-> forall l, In l (map fst table) -> (f = l <-> g = l)).
Proof. intros (A & B & C). now apply words_same. Qed.

Lemma Forall2_cons_iff' {A B} (P : A -> B -> Prop) x y l k : Forall2 P (x :: l) (y :: k) <-> P x y /\ Forall2 P l k.
Proof. split; [intros H; inversion H; auto|intros [H K]; now constructor]. Qed.

Ltac each := cbn [doubles]; rewrite ?Forall2_cons_iff'.

Lemma angle_att n minus h h' f g o o' : field_value (angle n minus h) f o -> field_value (angle n minus h') g o' ->
  (n <= 3)%nat -> f = [] \/ nine_decimals n f -> g = [] \/ nine_decimals n g ->
  (both_or_none f g (angle_written n minus h f) (angle_written n minus h' g) <-> same_attribute o o').
Proof. intros. symmetry. now apply angle_same_attribute. Qed.
Lemma number_att f g o o' : lenient_value reads_double f o -> lenient_value reads_double g o' ->
  f = [] \/ fifteen_digits f -> g = [] \/ fifteen_digits g ->
  (both_or_none f g (stands_for f) (stands_for g) <-> same_attribute o o').
Proof. intros. symmetry. now apply number_same_attribute. Qed.
Lemma field_att f g o o' : field_value reads_double f o -> field_value reads_double g o' ->
  f = [] \/ fifteen_digits f -> g = [] \/ fifteen_digits g ->
  (both_or_none f g (stands_for f) (stands_for g) <-> same_attribute o o').
Proof. intros F G. apply number_att; now apply field_lenient. Qed.
Lemma sided_att side side' f g o o' : field_value (variation side) f o -> field_value (variation side') g o' ->
  f = [] \/ fifteen_digits f -> g = [] \/ fifteen_digits g ->
  (both_or_none f g (sided side f) (sided side' g) <-> same_attribute o o').
Proof. intros. symmetry. now apply sided_same_attribute. Qed.

Lemma report_same_data now nav nav' fs gs fff data r r' : In (fff, data) gnss_data ->
  gnss_report now nav fs fff r -> gnss_report now nav' gs fff r' -> Forall (sharp fs) data -> Forall (sharp gs) data ->
  (same_report r r' <-> nav = nav' /\ Forall (same_datum fs gs) data).
Proof.
  intros I F G Sf Sg. unfold same_report. cbn [gnss_data In] in I. revert I Sf Sg G.
  destruct F as [d R|d R|d R|d R|d R]; intros I Sf Sg G; inversion G as [d' R' Ef|d' R' Ef|d' R' Ef|d' R' Ef|d' R' Ef]; try discriminate; subst r'; clear G Ef;
    destruct I as [I|[I|[I|[I|[I|[]]]]]]; try discriminate; injection I as <-; cbn [app Nat.add] in *;
    repeat match goal with H : Forall (sharp _) (_ :: _) |- _ => apply Forall_cons_iff in H as [?S H] end;
    repeat match goal with H : Forall (sharp _) [] |- _ => clear H end; cbn [sharp] in *;
    repeat match goal with H : True |- _ => clear H end;
    rewrite ?Forall_cons_iff; cbn [same_datum].
  - destruct R as (<- & R0 & R1 & R2 & (q & R3 & Eq) & R4 & R5 & R6 & R7 & R8 & R9), R' as (<- & R0' & R1' & R2' & (q' & R3' & Eq') & R4' & R5' & R6' & R7' & R8' & R9').
    rewrite <- (time_same_stamp now _ _ _ _ R0 R0'), <- (count_same _ _ _ _ _ R4 R4'), <- (count_same _ _ _ _ _ R9 R9'),
      <- (quality_same _ _ _ _ R3 R3'), <- Eq, <- Eq'.
    rewrite (angle_att 2 (lit "S") _ _ _ _ _ _ R1 R1'), (angle_att 3 (lit "W") _ _ _ _ _ _ R2 R2') by (assumption || lia).
    rewrite (field_att _ _ _ _ R5 R5'), (field_att _ _ _ _ R6 R6'), (field_att _ _ _ _ R7 R7'), (field_att _ _ _ _ R8 R8') by assumption.
    each. clear. destruct d, d'. cbn. split.
    + intros (E & H). injection E as -> -> -> -> ->. repeat split; try apply H; constructor.
    + intros (-> & -> & H1 & H2 & -> & -> & H). repeat split; try assumption; try (now apply H); [|constructor]. f_equal. f_equal. apply H.
  - destruct R as (<- & R0 & R1 & R2 & R3 & R4 & R5 & R6), R' as (<- & R0' & R1' & R2' & R3' & R4' & R5' & R6').
    rewrite <- (date_same_stamp now _ _ _ _ _ _ R0 R0').
    change [lit "A"; lit "V"] with (map fst statuses). rewrite <- (letters_same statuses _ _ _ _ statuses_nodup (field_lenient _ _ _ R1) (field_lenient _ _ _ R1')).
    rewrite (angle_att 2 (lit "S") _ _ _ _ _ _ R2 R2'), (angle_att 3 (lit "W") _ _ _ _ _ _ R3 R3') by (assumption || lia).
    rewrite (field_att _ _ _ _ R4 R4'), (field_att _ _ _ _ R5 R5'), (sided_att _ _ _ _ _ _ R6 R6') by assumption.
    each. clear. destruct d, d'. cbn. split.
    + intros (E & H). injection E as -> -> ->. repeat split; try apply H; constructor.
    + intros (-> & -> & -> & H). repeat split; try (now apply H); constructor.
  - destruct R as (<- & R0 & R1 & R2 & R3 & R4 & R5), R' as (<- & R0' & R1' & R2' & R3' & R4' & R5').
    change [lit "M"; lit "A"] with (map fst selection_modes). change [lit "1"; lit "2"; lit "3"] with (map fst fix_modes).
    rewrite <- (letters_same selection_modes _ _ _ _ selection_nodup (field_lenient _ _ _ R0) (field_lenient _ _ _ R0')),
      <- (letters_same fix_modes _ _ _ _ fixes_nodup (field_lenient _ _ _ R1) (field_lenient _ _ _ R1')), <- (counts_same _ _ _ _ R2 R2').
    rewrite (field_att _ _ _ _ R3 R3'), (field_att _ _ _ _ R4 R4'), (field_att _ _ _ _ R5 R5') by assumption.
    each. clear. destruct d, d'. cbn. split.
    + intros (E & H). injection E as -> -> -> ->. repeat split; try apply H; constructor.
    + intros (-> & -> & -> & -> & H). repeat split; try (now apply H); constructor.
  - destruct R as (<- & R0 & R1 & R2 & R3 & R4), R' as (<- & R0' & R1' & R2' & R3' & R4').
    rewrite <- (time_same_stamp now _ _ _ _ R2 R2').
    change [lit "A"; lit "V"] with (map fst statuses). change [lit "A"; lit "D"; lit "E"; lit "N"] with (map fst faa_modes).
    rewrite <- (letters_same statuses _ _ _ _ statuses_nodup R3 R3'), <- (letters_same faa_modes _ _ _ _ faa_nodup R4 R4').
    rewrite (angle_att 2 (lit "S") _ _ _ _ _ _ R0 R0'), (angle_att 3 (lit "W") _ _ _ _ _ _ R1 R1') by (assumption || lia).
    each. clear. destruct d, d'. cbn. split.
    + intros (E & H). injection E as -> -> -> ->. repeat split; try apply H; constructor.
    + intros (-> & H1 & H2 & -> & -> & -> & H). repeat split; try assumption; constructor.
  - destruct R as (<- & R0 & R1 & R2 & R3 & R4), R' as (<- & R0' & R1' & R2' & R3' & R4').
    change [lit "A"; lit "D"; lit "E"; lit "N"] with (map fst faa_modes).
    rewrite <- (letters_same faa_modes _ _ _ _ faa_nodup R4 R4').
    rewrite (number_att _ _ _ _ R0 R0'), (number_att _ _ _ _ R1 R1'), (number_att _ _ _ _ R2 R2'), (number_att _ _ _ _ R3 R3') by assumption.
    each. clear. destruct d, d'. cbn. split.
    + intros (E & H). injection E as -> ->. repeat split; try apply H; constructor.
    + intros (-> & H1 & H2 & H3 & H4 & -> & H). repeat split; try assumption; constructor.
Qed.

(** ** C101 *)

(** Two position, course or satellite reports are equal exactly if the navigation systems and all data are. *)
Theorem c101_equal_data ovf ovf' now s s' tt tt' nav nav' fff data fs gs p p' r r' :
  gnss_with s tt fff fs -> gnss_with s' tt' fff gs -> names_system tt nav -> names_system tt' nav' ->
  In (fff, data) gnss_data -> clock now -> (0 <= dt_year now)%Z ->
  Forall (sharp fs) data -> Forall (sharp gs) data ->
  fst (parse_sentence ovf now s p) = Ok r -> fst (parse_sentence ovf' now s' p') = Ok r' ->
  (ParsedSentence_eqb r r' = true <-> nav = nav' /\ Forall (same_datum fs gs) data).
Proof.
  intros Hs Hs' Hn Hn' Hd Hc Hy Sf Sg R R'. rewrite c76_equal_iff.
  assert (K : exists kinds, In (fff, kinds) field_contents).
  { cbn [In gnss_data] in Hd. destruct Hd as [H|[H|[H|[H|[H|[]]]]]]; injection H as <- _; eexists; cbn [In field_contents]; eauto 10. }
  destruct K as (kinds & K).
  apply (gnss_report_iff ovf now s tt fff fs p r nav kinds Hs Hn K Hc Hy) in R.
  apply (gnss_report_iff ovf' now s' tt' fff gs p' r' nav' kinds Hs' Hn' K Hc Hy) in R'.
  now apply (report_same_data now nav nav' fs gs fff data).
Qed.
Print Assumptions c101_equal_data.

(** Ordinary fields have no more digits than that: a number of up to fifteen digits with or without a decimal
    point and a sign, or degrees and less than sixty minutes with up to nine decimals. *)
Theorem c101_plain sign neg ip dot fp : sign_text sign neg -> Forall digit ip -> Forall digit fp -> ip ++ fp <> [] ->
  dot = lit "." \/ dot = [] /\ fp = [] -> (List.length (ip ++ fp) <= 15)%nat ->
  fifteen_digits (sign ++ ip ++ dot ++ fp) /\
  stands_for (sign ++ ip ++ dot ++ fp)
    (let v := (IZR (Z.of_N (numeral_value (ip ++ fp))) / 10 ^ List.length fp)%R in if neg then (- v)%R else v).
Proof.
  intros S Hi Hf Hn Hd L. cbn zeta.
  assert (E : (IZR (Z.of_N (numeral_value (ip ++ fp))) / 10 ^ List.length fp)%R =
    decimal_size (numeral_value (ip ++ fp)) (- Z.of_nat (List.length fp))).
  { unfold decimal_size. rewrite powerRZ_neg' , <- pow_powerRZ. reflexivity. }
  rewrite E. set (n := numeral_value (ip ++ fp)) in *. set (k := (- Z.of_nat (List.length fp))%Z) in *.
  assert (St : stands_for (sign ++ ip ++ dot ++ fp) (if neg then - decimal_size n k else decimal_size n k)%R).
  { exists neg, n, k. split; [|reflexivity]. apply (decimal_intro _ _ _ _ sign ip dot fp [] 0%Z); auto; [now rewrite app_nil_r|constructor]. }
  split; [|exact St]. exists (if neg then - decimal_size n k else decimal_size n k)%R, n, k.
  assert (P : (0 <= decimal_size n k)%R).
  { rewrite <- E. apply Rmult_le_pos; [apply IZR_le; lia|]. apply Rlt_le, Rinv_0_lt_compat, pow_lt. lra. }
  split; [exact St|]. split; [destruct neg; rewrite ?Rabs_Ropp; now apply Rabs_pos_eq|].
  assert (B : n < 10 ^ 15).
  { eapply N.lt_le_trans; [apply numeral_value_lt, Forall_app; auto|]. apply N.pow_le_mono_r; lia. }
  split; [exact B|]. assert (X : Rabs (if neg then - decimal_size n k else decimal_size n k)%R = decimal_size n k).
  { destruct neg; rewrite ?Rabs_Ropp; now apply Rabs_pos_eq. }
  rewrite X. destruct (N.eq_dec n 0) as [Z|Z].
  { left. rewrite Z. unfold decimal_size. cbn [Z.of_N]. destruct neg; lra. }
  right. rewrite <- E. assert (T : (1 <= 10 ^ List.length fp <= 10 ^ 15)%R).
  { split; [apply pow_R1_Rle; lra|]. apply Rle_pow; [lra|]. rewrite app_length in L. lia. }
  assert (T2 : (10 ^ 15 <= 10 ^ 300)%R) by (apply Rle_pow; [lra|lia]).
  assert (N1 : (1 <= IZR (Z.of_N n))%R) by (apply IZR_le; lia).
  assert (N2 : (IZR (Z.of_N n) <= 10 ^ 15)%R) by (rewrite pow_IZR; apply IZR_le; change (10 ^ Z.of_nat 15)%Z with (Z.of_N (10 ^ 15)); lia).
  assert (I1 : (/ 10 ^ 300 <= / 10 ^ List.length fp)%R) by (apply Rinv_le_contravar; lra).
  assert (I2 : (/ 10 ^ List.length fp <= 1)%R) by (rewrite <- Rinv_1; apply Rinv_le_contravar; lra).
  assert (I3 : (0 < / 10 ^ 300)%R) by (apply Rinv_0_lt_compat; lra).
  generalize dependent (10 ^ 300)%R. generalize dependent (10 ^ 15)%R. intros. unfold Rdiv.
  set (q := (/ 10 ^ List.length fp)%R) in *. set (z := IZR (Z.of_N n)) in *. split.
  - apply Rle_trans with (1 * q)%R; [lra|]. apply Rmult_le_compat_r; lra.
  - apply Rle_trans with (z * 1)%R; [|lra]. apply Rmult_le_compat_l; lra.
Qed.
Print Assumptions c101_plain.

Lemma numeral_value_app' a b : numeral_value (a ++ b) = numeral_value a * 10 ^ N.of_nat (List.length b) + numeral_value b.
Proof.
  induction b as [|b c IH] using rev_ind; [rewrite app_nil_r; cbn; lia|].
  rewrite app_assoc, !numeral_value_snoc, IH, app_length. cbn [List.length]. rewrite Nat.add_1_r, Nat2N.inj_succ, N.pow_succ_r'. lia.
Qed.

Theorem c101_plain_angle n dd mm frac rest :
  Forall digit dd -> Forall digit mm -> Forall digit frac -> List.length dd = n -> List.length mm = 2%nat ->
  frac <> [] -> (List.length frac <= 9)%nat -> match rest with [] => True | c :: _ => ~ digit c end ->
  numeral_value mm < 60 -> nine_decimals n (dd ++ mm ++ lit "." ++ frac ++ rest).
Proof.
  intros Hd Hm Hf Ld Lm Nf Lf Hr M.
  set (m := decimal_size (numeral_value (mm ++ frac)) (- Z.of_nat (List.length frac))).
  exists (numeral_value dd), m, (numeral_value (mm ++ frac) * 10 ^ N.of_nat (9 - List.length frac)).
  assert (E : m = (IZR (Z.of_N (numeral_value (mm ++ frac))) / 10 ^ List.length frac)%R).
  { unfold m, decimal_size. rewrite powerRZ_neg', <- pow_powerRZ. reflexivity. }
  assert (P : (0 < 10 ^ List.length frac)%R) by (apply pow_lt; lra).
  split; [now apply (degrees_minutes_intro _ _ _ _ dd mm frac rest)|]. split.
  - rewrite E. apply Rmult_lt_reg_r with (10 ^ List.length frac)%R; [exact P|].
    unfold Rdiv. rewrite Rmult_assoc, Rinv_l, Rmult_1_r by lra.
    rewrite pow_IZR, <- mult_IZR. apply IZR_lt.
    assert (numeral_value (mm ++ frac) < 60 * 10 ^ N.of_nat (List.length frac)).
    { rewrite numeral_value_app'. pose proof (numeral_value_lt frac Hf). nia. }
    change 10%Z with (Z.of_N 10). change 60%Z with (Z.of_N 60). rewrite <- (nat_N_Z (List.length frac)), <- N2Z.inj_pow, <- N2Z.inj_mul. lia.
  - rewrite E, N2Z.inj_mul, mult_IZR, N2Z.inj_pow, nat_N_Z, <- pow_IZR. change (Z.of_N 10) with 10%Z.
    replace (10 ^ 9)%R with (10 ^ List.length frac * 10 ^ (9 - List.length frac))%R; [field; lra|].
    rewrite <- pow_add. f_equal. lia.
Qed.
Print Assumptions c101_plain_angle.

(** Two positions that differ in the last decimal of the altitude, and the first one written in another way. *)
Definition ex_sharp1 : list str :=
  map lit ["123519"; "4807.038"; "N"; "01131.000"; "E"; "1"; "08"; "0.9"; "545.4"; "M"; "46.9"; "M"; ""; ""]%string.
Definition ex_sharp2 : list str :=
  map lit ["123519"; "4807.038"; "N"; "01131.000"; "E"; "1"; "08"; "0.9"; "545.4000000001"; "M"; "46.9"; "M"; ""; ""]%string.
Definition ex_sharp3 : list str :=
  map lit ["123519.5"; "4807.0380"; "N"; "01131.0"; "E"; "+1"; "8"; "+.90"; "0545.400"; "M"; "46.9"; "M"; ""; ""]%string.

Lemma all_digits s : forallb (fun c => (48 <=? c) && (c <=? 57)) s = true -> Forall digit s.
Proof.
  intros H. apply Forall_forall. intros c Hc. rewrite forallb_forall in H. apply H in Hc. apply andb_prop in Hc as [A B].
  apply N.leb_le in A, B. split; assumption.
Qed.

Lemma ex_fifteen sign neg ip fp : sign_text sign neg -> forallb (fun c => (48 <=? c) && (c <=? 57)) (ip ++ fp) = true ->
  ip ++ fp <> [] -> (List.length (ip ++ fp) <= 15)%nat -> fifteen_digits (sign ++ ip ++ lit "." ++ fp).
Proof.
  intros S D N L. apply all_digits, Forall_app in D as [D1 D2]. now apply (c101_plain sign neg ip (lit ".") fp); auto.
Qed.

Lemma ex_nine n dd mm frac : forallb (fun c => (48 <=? c) && (c <=? 57)) (dd ++ mm ++ frac) = true -> List.length dd = n ->
  List.length mm = 2%nat -> frac <> [] -> (List.length frac <= 9)%nat -> numeral_value mm < 60 ->
  nine_decimals n (dd ++ mm ++ lit "." ++ frac).
Proof.
  intros D L1 L2 N L3 M. apply all_digits, Forall_app in D as [D1 D]. apply Forall_app in D as [D2 D3].
  rewrite <- (app_nil_r frac) at 1. now apply c101_plain_angle.
Qed.

Definition ex_data : list datum := nth 0 (map snd gnss_data) [].

Lemma ex_sharp1_sharp : Forall (sharp ex_sharp1) ex_data.
Proof.
  unfold ex_data. cbn [nth map snd gnss_data app Nat.add]. repeat (first [apply Forall_nil|apply Forall_cons]); cbn [sharp fld ex_sharp1 map nth]; try exact Logic.I;
    try (left; reflexivity); right.
  - exact (ex_nine 2 (lit "48") (lit "07") (lit "038") eq_refl eq_refl eq_refl ltac:(discriminate) ltac:(cbn; lia) eq_refl).
  - exact (ex_nine 3 (lit "011") (lit "31") (lit "000") eq_refl eq_refl eq_refl ltac:(discriminate) ltac:(cbn; lia) eq_refl).
  - exact (ex_fifteen [] false (lit "0") (lit "9") ltac:(left; auto) eq_refl ltac:(discriminate) ltac:(cbn; lia)).
  - exact (ex_fifteen [] false (lit "545") (lit "4") ltac:(left; auto) eq_refl ltac:(discriminate) ltac:(cbn; lia)).
  - exact (ex_fifteen [] false (lit "46") (lit "9") ltac:(left; auto) eq_refl ltac:(discriminate) ltac:(cbn; lia)).
Qed.

Lemma ex_sharp2_sharp : Forall (sharp ex_sharp2) ex_data.
Proof.
  unfold ex_data. cbn [nth map snd gnss_data app Nat.add]. repeat (first [apply Forall_nil|apply Forall_cons]); cbn [sharp fld ex_sharp2 map nth]; try exact Logic.I;
    try (left; reflexivity); right.
  - exact (ex_nine 2 (lit "48") (lit "07") (lit "038") eq_refl eq_refl eq_refl ltac:(discriminate) ltac:(cbn; lia) eq_refl).
  - exact (ex_nine 3 (lit "011") (lit "31") (lit "000") eq_refl eq_refl eq_refl ltac:(discriminate) ltac:(cbn; lia) eq_refl).
  - exact (ex_fifteen [] false (lit "0") (lit "9") ltac:(left; auto) eq_refl ltac:(discriminate) ltac:(cbn; lia)).
  - exact (ex_fifteen [] false (lit "545") (lit "4000000001") ltac:(left; auto) eq_refl ltac:(discriminate) ltac:(cbn; lia)).
  - exact (ex_fifteen [] false (lit "46") (lit "9") ltac:(left; auto) eq_refl ltac:(discriminate) ltac:(cbn; lia)).
Qed.

Lemma ex_sharp3_sharp : Forall (sharp ex_sharp3) ex_data.
Proof.
  unfold ex_data. cbn [nth map snd gnss_data app Nat.add]. repeat (first [apply Forall_nil|apply Forall_cons]); cbn [sharp fld ex_sharp3 map nth]; try exact Logic.I;
    try (left; reflexivity); right.
  - exact (ex_nine 2 (lit "48") (lit "07") (lit "0380") eq_refl eq_refl eq_refl ltac:(discriminate) ltac:(cbn; lia) eq_refl).
  - exact (ex_nine 3 (lit "011") (lit "31") (lit "0") eq_refl eq_refl eq_refl ltac:(discriminate) ltac:(cbn; lia) eq_refl).
  - exact (ex_fifteen (lit "+") false [] (lit "90") ltac:(right; left; auto) eq_refl ltac:(discriminate) ltac:(cbn; lia)).
  - exact (ex_fifteen [] false (lit "0545") (lit "400") ltac:(left; auto) eq_refl ltac:(discriminate) ltac:(cbn; lia)).
  - exact (ex_fifteen [] false (lit "46") (lit "9") ltac:(left; auto) eq_refl ltac:(discriminate) ltac:(cbn; lia)).
Qed.

Example c101_example :
  exists r1 r2 r3, fst (parse_sentence true ex_now (lit "$GPGGA,123519,4807.038,N,01131.000,E,1,08,0.9,545.4,M,46.9,M,,") new_parser) = Ok r1 /\
    fst (parse_sentence true ex_now (lit "$GPGGA,123519,4807.038,N,01131.000,E,1,08,0.9,545.4000000001,M,46.9,M,,") new_parser) = Ok r2 /\
    fst (parse_sentence true ex_now (lit "$GPGGA,123519.5,4807.0380,N,01131.0,E,+1,8,+.90,0545.400,M,46.9,M,,") new_parser) = Ok r3 /\
    ParsedSentence_eqb r1 r2 = false /\ ~ Forall (same_datum ex_sharp1 ex_sharp2) ex_data /\
    ParsedSentence_eqb r1 r3 = true /\ Forall (same_datum ex_sharp1 ex_sharp3) ex_data.
Proof.
  do 3 eexists. split; [vm_compute; reflexivity|]. split; [vm_compute; reflexivity|]. split; [vm_compute; reflexivity|].
  assert (Cl : clock ex_now) by (vm_compute; repeat split; intuition discriminate).
  assert (G1 : gnss_with (lit "$GPGGA,123519,4807.038,N,01131.000,E,1,08,0.9,545.4,M,46.9,M,,") (lit "GP") (lit "GGA") ex_sharp1) by gnss.
  assert (G2 : gnss_with (lit "$GPGGA,123519,4807.038,N,01131.000,E,1,08,0.9,545.4000000001,M,46.9,M,,") (lit "GP") (lit "GGA") ex_sharp2) by gnss.
  assert (G3 : gnss_with (lit "$GPGGA,123519.5,4807.0380,N,01131.0,E,+1,8,+.90,0545.400,M,46.9,M,,") (lit "GP") (lit "GGA") ex_sharp3) by gnss.
  assert (Nm : names_system (lit "GP") NavGps) by (left; vm_compute; tauto).
  assert (I : In (lit "GGA", ex_data) gnss_data) by (left; reflexivity).
  split; [vm_compute; reflexivity|]. split; [|split; [vm_compute; reflexivity|]].
  - intros F. assert (T : ParsedSentence_eqb _ _ = true) by
      (apply (c101_equal_data true true ex_now _ _ _ _ _ _ _ _ _ _ new_parser new_parser _ _ G1 G2 Nm Nm I Cl ltac:(discriminate) ex_sharp1_sharp ex_sharp2_sharp
        ltac:(vm_compute; reflexivity) ltac:(vm_compute; reflexivity)); auto). vm_compute in T. discriminate T.
  - apply (c101_equal_data true true ex_now _ _ _ _ _ _ _ _ _ _ new_parser new_parser _ _ G1 G3 Nm Nm I Cl ltac:(discriminate) ex_sharp1_sharp ex_sharp3_sharp
        ltac:(vm_compute; reflexivity) ltac:(vm_compute; reflexivity)). vm_compute. reflexivity.
Qed.

(** Sixteen digits are too many: two different speeds in equal reports. *)
Theorem c101_sixteen_digits : exists s s' fs gs v w r r',
  gnss_with s (lit "GP") (lit "VTG") fs /\ gnss_with s' (lit "GP") (lit "VTG") gs /\
  stands_for (fld fs 6) v /\ stands_for (fld gs 6) w /\ v <> w /\
  (forall ovf now p, fst (parse_sentence ovf now s p) = Ok r /\ fst (parse_sentence ovf now s' p) = Ok r') /\
  ParsedSentence_eqb r r' = true.
Proof.
  exists (lit "$GPVTG,,T,,M,,N,9007199254740992,K"), (lit "$GPVTG,,T,,M,,N,9007199254740993,K"),
    (map lit [""; "T"; ""; "M"; ""; "N"; "9007199254740992"; "K"]%string),
    (map lit [""; "T"; ""; "M"; ""; "N"; "9007199254740993"; "K"]%string), 9007199254740992%R, 9007199254740993%R.
  do 2 eexists. split; [gnss|]. split; [gnss|].
  assert (D : forall ds, is_numeral ds -> decimal ds false (numeral_value ds) 0).
  { intros ds [Ne Ds]. apply (decimal_intro _ _ _ _ [] ds [] [] [] 0%Z); auto; try (now rewrite ?app_nil_r); [now left|constructor]. }
  split; [|split; [|split; [lra|split]]].
  - exists false, 9007199254740992, 0%Z. split; [|unfold decimal_size; simpl; lra].
    apply (D (lit "9007199254740992")). split; [discriminate|now apply all_digits].
  - exists false, 9007199254740993, 0%Z. split; [|unfold decimal_size; simpl; lra].
    apply (D (lit "9007199254740993")). split; [discriminate|now apply all_digits].
  - intros ovf now p. split; reflexivity.
  - vm_compute. reflexivity.
Qed.
Print Assumptions c101_sixteen_digits.
