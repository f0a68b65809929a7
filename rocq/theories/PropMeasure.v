(** C32-C36: positions, speeds, courses, headings and turns of AIS reports as real numbers. *)
From Coq Require Import List NArith ZArith Bool String Lia QArith Qreals Reals Lra Floats.SpecFloat.
From Flocq Require Import Core.
From Verif Require Import Base Str F64 Chrono Types Util AisMod Vdm Gnss Parser
  SpecText SpecResult SpecAis SpecTime SpecReal SpecMeasure StrFacts FrontFacts CallFacts ResultFacts BitFacts
  VdmFacts LayoutFacts FloatFacts DecimalFacts PropFront.
Import ListNotations.
Open Scope R_scope.

Local Opaque pick_string pick_u64 pick_i64 f64_div f64_mul f64_of_Z f64_of_dec.

Lemma signed_range bv i n : (fits_signed (Z.of_nat (S n)) (signed_value (window bv i (S n)))).
Proof.
  rewrite (signed_value_of _ n) by apply window_length.
  pose proof (be_value_lt (window bv i (S n))) as H. rewrite window_length in H. unfold fits_signed.
  rewrite Nat2N.inj_succ, N.pow_succ_r' in H. replace (Z.of_nat (S n) - 1)%Z with (Z.of_nat n) by lia.
  assert (E : Z.of_N (2 ^ N.of_nat n) = (2 ^ Z.of_nat n)%Z) by (rewrite N2Z.inj_pow; now rewrite nat_N_Z).
  rewrite Nat2Z.inj_succ, Z.pow_succ_r by lia. destruct (N.leb_spec (2 ^ N.of_nat n) (be_value (window bv i (S n)))); lia.
Qed.

Lemma coord_degrees bv i n na : (n < 32)%nat ->
  coord bv i (S n) na 600000 = degrees na (signed_value (window bv i (S n))).
Proof.
  intros H. unfold degrees. apply (coord_value _ _ _ _ _ (signed_value (window bv i (S n)))).
  - apply pick_i64_spec. lia.
  - apply (small_i32 (Z.of_nat (S n))); [apply signed_range|lia].
Qed.

(** ** C32 *)

Lemma degrees_nearest na raw : (Z.abs raw <= 2 ^ 53)%Z -> coordinate na raw (degrees na raw).
Proof.
  intros H. unfold coordinate, degrees. destruct (Z.eqb_spec raw na) as [E|E]; [left; auto|].
  right. split; [exact E|]. eexists. split; [reflexivity|].
  destruct (f64_of_Z_exact raw H) as (Er & Fr & Pr & Nr).
  destruct (f64_of_Z_exact 600000) as (E6 & F6 & P6 & N6); [lia|].
  destruct (f64_div_rounds (f64_of_Z raw) (f64_of_Z 600000) Fr F6) as (P & R & _).
  { rewrite E6. apply not_0_IZR. discriminate. }
  rewrite Er, E6 in R. destruct R as (R1 & R2 & R3); [|now apply nearest_rnd].
  apply (rnd_in_range 53); [lia|]. rewrite <- (IZR_Zpower radix2 53) by lia.
  change (Zpower radix2 53) with (2 ^ 53)%Z. apply IZR_le in H. rewrite abs_IZR in H.
  unfold Rdiv. rewrite Rabs_mult. rewrite (Rabs_pos_eq (/ 600000)) by lra. pose proof (Rabs_pos (IZR raw)). lra.
Qed.

Lemma position_of_report ovf now s p tt fff bits t lo la r p' :
  one_fragment s tt fff (armor bits) -> message_type bits t -> position_bits t = Some (lo, la) ->
  parse_sentence ovf now s p = (Ok r, p') ->
  position r = Some (degrees latitude_na (signed_value (window bits la 27)),
                     degrees longitude_na (signed_value (window bits lo 28))).
Proof.
  intros Hs Ht Hp Hr. rewrite (one_fragment_bits _ _ _ _ _ _ _ Hs) in Hr. unfold message_type in Ht.
  unfold dispatch_message in Hr. rewrite pick_u64_spec, Ht in Hr by lia.
  rewrite <- (coord_degrees bits la 26), <- (coord_degrees bits lo 27) by lia.
  change latitude_na with 0x3412140%Z. change longitude_na with 0x6791AC0%Z.
  unfold position_bits in Hp.
  assert (C : (t = 1 \/ t = 2 \/ t = 3 \/ t = 9 \/ t = 4 \/ t = 18 \/ t = 21)%N).
  { destruct t as [|q]; [discriminate|].
    do 5 (destruct q as [q|q|]; try discriminate Hp; try (clear; tauto)). }
  destruct C as [-> |[-> |[-> |[-> |[-> |[-> | ->]]]]]]; injection Hp as <- <-;
    (apply pair_equal_spec in Hr as [Hr _]).
  1,2,3,4,6: injection Hr as <-; reflexivity.
  - unfold handle_t4 in Hr. destruct (ymd_and_hms _ _ _ _ _ _); try discriminate. injection Hr as <-. reflexivity.
  - unfold handle_t21 in Hr. destruct (pick_string bits 43 20); try discriminate. cbn [bind] in Hr.
    destruct (pick_string bits 272 14); try discriminate. injection Hr as <-. reflexivity.
Qed.

Lemma signed_abs bv i n : (n < 53)%nat -> (Z.abs (signed_value (window bv i (S n))) <= 2 ^ Z.of_nat n)%Z.
Proof.
  intros H. pose proof (signed_range bv i n) as R. unfold fits_signed in R.
  replace (Z.of_nat (S n) - 1)%Z with (Z.of_nat n) in R by lia. lia.
Qed.

Lemma signed_abs_53 bv i n : (n < 53)%nat -> (Z.abs (signed_value (window bv i (S n))) <= 2 ^ 53)%Z.
Proof.
  intros H. eapply Z.le_trans; [now apply signed_abs|]. apply Z.pow_le_mono_r; lia.
Qed.

(** Any sentence with any message of these types, also a truncated one. *)
Theorem c32_nearest_coordinates ovf now s p tt fff bits t lo la r p' :
  one_fragment s tt fff (armor bits) -> message_type bits t -> position_bits t = Some (lo, la) ->
  parse_sentence ovf now s p = (Ok r, p') ->
  exists lat lon, position r = Some (lat, lon) /\
    coordinate latitude_na (signed_value (window bits la 27)) lat /\
    coordinate longitude_na (signed_value (window bits lo 28)) lon.
Proof.
  intros Hs Ht Hp Hr. do 2 eexists. split; [exact (position_of_report _ _ _ _ _ _ _ _ _ _ _ _ Hs Ht Hp Hr)|].
  split; apply degrees_nearest; [apply (signed_abs_53 bits la 26)|apply (signed_abs_53 bits lo 27)]; lia.
Qed.
Print Assumptions c32_nearest_coordinates.

Lemma nearest_value k v x : nearest v x -> (-1021 <= k < 1024)%Z -> Rabs v <= bpow radix2 k ->
  real_of x = rnd v /\ Rabs (real_of x - v) <= bpow radix2 (k - 53).
Proof.
  intros H Hk Hv. assert (E : real_of x = rnd v) by (apply nearest_is_rnd; [exact H|]; apply (rnd_in_range k); [lia|exact Hv]).
  split; [exact E|]. rewrite E. apply rnd_error; [lia|exact Hv].
Qed.

Lemma raw_small raw : (Z.abs raw <= 2 ^ 27)%Z -> Rabs (IZR raw / 600000) <= bpow radix2 8.
Proof.
  intros H. apply IZR_le in H. rewrite abs_IZR in H. unfold Rdiv. rewrite Rabs_mult, (Rabs_pos_eq (/ 600000)) by lra.
  rewrite <- (IZR_Zpower radix2 8) by lia. change (Zpower radix2 8) with 256%Z. change (2 ^ 27)%Z with 134217728%Z in H.
  pose proof (Rabs_pos (IZR raw)). lra.
Qed.

Lemma bpow_m45 : bpow radix2 (8 - 53) = / 35184372088832.
Proof. reflexivity. Qed.

Lemma coordinate_injective na a b o : (Z.abs a <= 2 ^ 27)%Z -> (Z.abs b <= 2 ^ 27)%Z ->
  coordinate na a o -> coordinate na b o -> a = b.
Proof.
  intros Ha Hb [[-> ->]|(Na & x & -> & Hx)] [[-> E]|(Nb & y & E & Hy)]; try discriminate; [reflexivity|].
  injection E as <-. apply raw_small in Ha, Hb.
  destruct (nearest_value 8 _ _ Hx) as [_ E1]; [lia|exact Ha|]. destruct (nearest_value 8 _ _ Hy) as [_ E2]; [lia|exact Hb|].
  rewrite bpow_m45 in *. apply Rabs_le_inv in E1, E2.
  assert (A : -1 < IZR (a - b) < 1) by (rewrite minus_IZR; lra).
  destruct A as [A1 A2]. apply lt_IZR in A1, A2. lia.
Qed.

(** The same latitude (longitude) is reported only for the same transmitted value. *)
Theorem c32_coordinates_injective ovf now s1 s2 p1 p2 tt1 tt2 fff1 fff2 bits1 bits2 t1 t2 lo1 lo2 la1 la2
    r1 r2 p1' p2' lat1 lat2 lon1 lon2 :
  one_fragment s1 tt1 fff1 (armor bits1) -> message_type bits1 t1 -> position_bits t1 = Some (lo1, la1) ->
  one_fragment s2 tt2 fff2 (armor bits2) -> message_type bits2 t2 -> position_bits t2 = Some (lo2, la2) ->
  parse_sentence ovf now s1 p1 = (Ok r1, p1') -> position r1 = Some (lat1, lon1) ->
  parse_sentence ovf now s2 p2 = (Ok r2, p2') -> position r2 = Some (lat2, lon2) ->
  (lat1 = lat2 -> signed_value (window bits1 la1 27) = signed_value (window bits2 la2 27)) /\
  (lon1 = lon2 -> signed_value (window bits1 lo1 28) = signed_value (window bits2 lo2 28)).
Proof.
  intros S1 T1 B1 S2 T2 B2 R1 P1 R2 P2.
  destruct (c32_nearest_coordinates _ _ _ _ _ _ _ _ _ _ _ _ S1 T1 B1 R1) as (x1 & y1 & E1 & C1 & D1).
  destruct (c32_nearest_coordinates _ _ _ _ _ _ _ _ _ _ _ _ S2 T2 B2 R2) as (x2 & y2 & E2 & C2 & D2).
  rewrite P1 in E1. injection E1 as <- <-. rewrite P2 in E2. injection E2 as <- <-.
  split; intros <-.
  - apply (coordinate_injective latitude_na _ _ lat1); auto; (eapply Z.le_trans; [apply (signed_abs _ _ 26); lia|lia]).
  - apply (coordinate_injective longitude_na _ _ lon1); auto; apply (signed_abs _ _ 27); lia.
Qed.
Print Assumptions c32_coordinates_injective.

(** The crate's own test sentence; its latitude is 29028980 ten-thousandths of a minute north. *)
Definition ex_position : str := lit "!AIVDM,1,1,,A,15RTgt0PAso;90TKcjM8h6g208CQ,0*4A".
Definition ex_position_bits : list bool := layout_bits
  [U 6 1; U 2 0; U 30 371798000; U 4 0; I 8 (-127); U 10 123; F true; I 28 (-74037230); I 27 29028980;
   U 12 2240; U 9 215; U 6 33; U 2 0; U 3 0; F false; U 19 34017].
Lemma ex_position_fragment : one_fragment ex_position (lit "AI") (lit "VDM") (armor ex_position_bits).
Proof. apply (check_one_fragment _ _ _ (lit "A") _ [lit "0"]). apply check_vdm; [|reflexivity]. vm_compute. auto. Qed.

Example c32_example :
  exists r lat lon, parse_sentence true ex_now ex_position new_parser = (Ok r, new_parser) /\
    position r = Some (Some lat, Some lon) /\
    nearest (29028980 / 600000) lat /\ nearest (-74037230 / 600000) lon.
Proof.
  assert (H : exists r, parse_sentence true ex_now ex_position new_parser = (Ok r, new_parser)) by (eexists; vm_compute; reflexivity).
  destruct H as (r & Hr). exists r.
  destruct (c32_nearest_coordinates _ _ _ _ _ _ _ 1 61 89 _ _ ex_position_fragment eq_refl eq_refl Hr) as (a & b & E & Ha & Hb).
  replace (signed_value (window ex_position_bits 89 27)) with 29028980%Z in Ha by reflexivity.
  replace (signed_value (window ex_position_bits 61 28)) with (-74037230)%Z in Hb by reflexivity.
  destruct Ha as [[Ha _]|(_ & x & -> & Ha)]; [discriminate Ha|]. destruct Hb as [[Hb _]|(_ & y & -> & Hb)]; [discriminate Hb|].
  exists x, y. auto.
Qed.

(** ** C33 *)

Lemma rnd_integer z : (Z.abs z <= 2 ^ 53)%Z -> rnd (IZR z) = IZR z.
Proof. intros H. apply rnd_exact. now apply double_value_format, integer_double. Qed.

Lemma coordinate_range na raw deg x : (Z.abs raw <= 2 ^ 27)%Z -> (0 <= deg <= 200)%Z ->
  coordinate na raw (Some x) -> (Rabs (real_of x) <= IZR deg <-> (Z.abs raw <= deg * 600000)%Z).
Proof.
  intros Hr Hd [[_ H]|(_ & y & E & Hx)]; [discriminate|]. injection E as <-.
  destruct (nearest_value 8 _ _ Hx) as [Ex E1]; [lia|now apply raw_small|]. rewrite bpow_m45 in E1. split.
  - intros H. destruct (Z.le_gt_cases (Z.abs raw) (deg * 600000)) as [|C]; [assumption|]. exfalso.
    apply Rabs_le_inv in H, E1. assert (C' : (deg * 600000 + 1 <= raw \/ raw <= - (deg * 600000) - 1)%Z) by lia.
    destruct C' as [C'|C']; apply IZR_le in C'.
    + rewrite plus_IZR, mult_IZR in C'. lra.
    + rewrite minus_IZR, opp_IZR, mult_IZR in C'. lra.
  - intros H. rewrite Ex. assert (B : (- (deg * 600000) <= raw <= deg * 600000)%Z) by lia. destruct B as [B1 B2].
    apply IZR_le in B1, B2. rewrite opp_IZR, mult_IZR in B1. rewrite mult_IZR in B2. apply Rabs_le. split.
    + rewrite <- opp_IZR. rewrite <- (rnd_integer (- deg)) by lia. apply rnd_le. rewrite opp_IZR. lra.
    + rewrite <- (rnd_integer deg) by lia. apply rnd_le. lra.
Qed.

(** A reported coordinate is in range exactly if the transmitted one is. *)
Theorem c33_in_range_iff ovf now s p tt fff bits t lo la r p' lat lon :
  one_fragment s tt fff (armor bits) -> message_type bits t -> position_bits t = Some (lo, la) ->
  parse_sentence ovf now s p = (Ok r, p') -> position r = Some (lat, lon) ->
  (forall x, lat = Some x -> (Rabs (real_of x) <= 90 <-> (Z.abs (signed_value (window bits la 27)) <= 90 * 600000)%Z)) /\
  (forall x, lon = Some x -> (Rabs (real_of x) <= 180 <-> (Z.abs (signed_value (window bits lo 28)) <= 180 * 600000)%Z)).
Proof.
  intros S T B R P. destruct (c32_nearest_coordinates _ _ _ _ _ _ _ _ _ _ _ _ S T B R) as (x1 & y1 & E1 & C1 & D1).
  rewrite P in E1. injection E1 as <- <-. split; intros x ->.
  - apply (coordinate_range latitude_na _ 90); auto; [|lia]. eapply Z.le_trans; [apply (signed_abs _ _ 26); lia|lia].
  - apply (coordinate_range longitude_na _ 180); auto; [|lia]. apply (signed_abs _ _ 27); lia.
Qed.
Print Assumptions c33_in_range_iff.

(** The largest values that fit the fields are accepted: 111.8 and 223.7 degrees. *)
Definition ex_far_bits : list bool := layout_bits
  [U 6 1; U 2 0; U 30 371798000; U 4 0; I 8 0; U 10 0; F true; I 28 134217727; I 27 67108863;
   U 12 0; U 9 0; U 6 0; U 2 0; U 3 0; F false; U 19 0].

Theorem c33_out_of_range_refuted :
  exists r lat lon, parse_sentence true ex_now (encode_sentence (lit "AI") (lit "VDM") (lit "A") ex_far_bits) new_parser
                    = (Ok r, new_parser) /\
    position r = Some (Some lat, Some lon) /\ 90 < Rabs (real_of lat) /\ 180 < Rabs (real_of lon).
Proof.
  assert (H : exists r, parse_sentence true ex_now (encode_sentence (lit "AI") (lit "VDM") (lit "A") ex_far_bits) new_parser
                        = (Ok r, new_parser)) by (eexists; vm_compute; reflexivity).
  destruct H as (r & Hr). exists r.
  assert (Hf : one_fragment (encode_sentence (lit "AI") (lit "VDM") (lit "A") ex_far_bits) (lit "AI") (lit "VDM") (armor ex_far_bits)).
  { apply encode_sentence_one_fragment; [reflexivity|now apply plain_lit_dec|now left|now apply plain_lit_dec]. }
  destruct (c32_nearest_coordinates _ _ _ _ _ _ _ 1 61 89 _ _ Hf eq_refl eq_refl Hr) as (a & b & E & Ha & Hb).
  replace (signed_value (window ex_far_bits 89 27)) with 67108863%Z in Ha by reflexivity.
  replace (signed_value (window ex_far_bits 61 28)) with 134217727%Z in Hb by reflexivity.
  destruct Ha as [[Ha _]|(Na & x & -> & Ha)]; [discriminate Ha|]. destruct Hb as [[Hb _]|(Nb & y & -> & Hb)]; [discriminate Hb|].
  exists x, y. split; [exact Hr|]. split; [exact E|].
  destruct (c33_in_range_iff _ _ _ _ _ _ _ 1 61 89 _ _ _ _ Hf eq_refl eq_refl Hr E) as [L1 L2].
  specialize (L1 x eq_refl). specialize (L2 y eq_refl).
  replace (signed_value (window ex_far_bits 89 27)) with 67108863%Z in L1 by reflexivity.
  replace (signed_value (window ex_far_bits 61 28)) with 134217727%Z in L2 by reflexivity.
  split; apply Rnot_le_lt; intros C.
  - apply L1 in C. lia.
  - apply L2 in C. lia.
Qed.
Print Assumptions c33_out_of_range_refuted.

Example c33_example :
  exists r lat lon, parse_sentence true ex_now ex_position new_parser = (Ok r, new_parser) /\
    position r = Some (Some lat, Some lon) /\ Rabs (real_of lat) <= 90 /\ Rabs (real_of lon) <= 180.
Proof.
  destruct c32_example as (r & lat & lon & Hr & Hp & _). exists r, lat, lon. split; [exact Hr|]. split; [exact Hp|].
  destruct (c33_in_range_iff _ _ _ _ _ _ _ 1 61 89 _ _ _ _ ex_position_fragment eq_refl eq_refl Hr Hp) as [L1 L2].
  split; [apply (L1 lat eq_refl)|apply (L2 lon eq_refl)]; vm_compute; discriminate.
Qed.

(** ** C34 *)

Lemma unsigned_range bv i n : fits (N.of_nat n) (be_value (window bv i n)).
Proof. pose proof (be_value_lt (window bv i n)) as H. now rewrite window_length in H. Qed.

(** The double nearest 0.1. *)
Lemma tenth_value : finite (f64_of_dec false 1 (-1)) /\ proper (f64_of_dec false 1 (-1)) /\
  negative (f64_of_dec false 1 (-1)) = false /\ Rabs (real_of (f64_of_dec false 1 (-1)) - / 10) <= bpow radix2 (-56).
Proof.
  assert (D : decimal_size 1 (-1) = / 10).
  { unfold decimal_size. change (powerRZ 10 (-1)) with (/ (10 * 1)). change (IZR (Z.of_N 1)) with 1. lra. }
  assert (O : decimal_size 1 (-1) < double_overflow).
  { rewrite D. unfold double_overflow. rewrite !powerRZ_bpow. assert (bpow radix2 1024 = bpow radix2 54 * bpow radix2 970) as ->
      by (rewrite <- bpow_plus; reflexivity).
    assert (1 <= bpow radix2 970) by (change 1 with (bpow radix2 0); apply bpow_le; lia).
    assert (2 <= bpow radix2 54) by (change 2 with (bpow radix2 1); apply bpow_le; lia).
    pose proof (Rmult_le_compat 1 (bpow radix2 54 - 1) 1 (bpow radix2 970)). lra. }
  destruct (f64_of_dec_nearest false 1 (-1) O) as [Hn Hs]. cbn [signed] in Hn. rewrite D in Hn.
  destruct (nearest_value (-3) _ _ Hn) as [_ H]; [lia|rewrite Rabs_pos_eq by lra; change (bpow radix2 (-3)) with (/ 8); lra|].
  destruct Hn as (F & P & _). auto.
Qed.

Lemma tenths_spec na raw : fits 12 raw -> in_tenths na raw (tenths na raw).
Proof.
  intros H. unfold in_tenths, tenths. destruct (N.eqb_spec raw na) as [E|E]; [left; auto|].
  right. split; [exact E|]. eexists. split; [reflexivity|]. unfold fits in H. change (2 ^ 12)%N with 4096%N in H.
  destruct (f64_of_Z_exact (Z.of_N raw)) as (Er & Fr & Pr & Nr); [lia|].
  destruct tenth_value as (Ft & Pt & Nt & Et). set (c := real_of (f64_of_dec false 1 (-1))) in *.
  destruct (f64_mul_rounds _ _ Fr Ft Pr Pt) as (_ & R & _). fold c in R. rewrite Er in R.
  set (q := IZR (Z.of_N raw)) in *. assert (Hq : 0 <= q <= 4095) by (unfold q; split; apply IZR_le; lia).
  change (bpow radix2 (-56)) with (/ 72057594037927936) in Et. apply Rabs_le_inv in Et.
  assert (Hv : 0 <= q * c <= 512) by nra.
  assert (Hb : Rabs (q * c) <= bpow radix2 9) by (rewrite Rabs_pos_eq by lra; change (bpow radix2 9) with 512; lra).
  destruct R as (R1 & R2 & R3); [apply (rnd_in_range 9); [lia|exact Hb]|]. split; [exact R2|]. rewrite R1.
  split; [apply rnd_nonneg; lra|].
  pose proof (rnd_error 9 (q * c) ltac:(lia) Hb) as Re. change (bpow radix2 (9 - 53)) with (/ 17592186044416) in Re.
  apply Rabs_le_inv in Re. apply Rabs_le.
  assert (D : - (4095 * / 72057594037927936) <= q * (c - / 10) <= 4095 * / 72057594037927936) by nra. lra.
Qed.

Lemma whole_spec na raw : fits 53 raw -> in_units na raw (whole na raw).
Proof.
  intros H. unfold in_units, whole. destruct (N.eqb_spec raw na) as [E|E]; [left; auto|].
  right. split; [exact E|]. eexists. split; [reflexivity|]. unfold fits in H.
  destruct (f64_of_Z_exact (Z.of_N raw)) as (Er & Fr & Pr & Nr); [|auto].
  change (2 ^ 53)%N with 9007199254740992%N in H. lia.
Qed.

Lemma motion_of_report ovf now s p tt fff bits t so co he r p' :
  one_fragment s tt fff (armor bits) -> message_type bits t -> motion_bits t = Some (so, co, he) ->
  parse_sentence ovf now s p = (Ok r, p') ->
  exists d, r = PsVesselDynamicData d /\
    vdd_sog_knots d = tenths 1023 (be_value (window bits so 10)) /\
    vdd_cog d = tenths 3600 (be_value (window bits co 12)) /\
    vdd_heading_true d = whole 511 (be_value (window bits he 9)).
Proof.
  intros Hs Ht Hp Hr. rewrite (one_fragment_bits _ _ _ _ _ _ _ Hs) in Hr. unfold message_type in Ht.
  unfold dispatch_message in Hr. rewrite pick_u64_spec, Ht in Hr by lia.
  rewrite <- (sog_value bits so) by (apply pick_u64_spec || apply unsigned_range; lia).
  rewrite <- (cog_value bits co) by (apply pick_u64_spec; lia).
  rewrite <- (heading_value bits he) by (apply pick_u64_spec; lia).
  unfold motion_bits in Hp.
  assert (C : (t = 1 \/ t = 2 \/ t = 3 \/ t = 18)%N).
  { destruct t as [|q]; [discriminate|].
    do 5 (destruct q as [q|q|]; try discriminate Hp; try (clear; tauto)). }
  destruct C as [-> |[-> |[-> | ->]]]; injection Hp as <- <- <-;
    (apply pair_equal_spec in Hr as [Hr _]); injection Hr as <-; eexists; (split; [reflexivity|]); auto.
Qed.

(** Products by 0.1 keep the order. *)
Lemma tenths_le na a b x y : (a <= b)%N -> fits 12 b -> tenths na a = Some x -> tenths na b = Some y -> real_of x <= real_of y.
Proof.
  unfold tenths, fits. change (2 ^ 12)%N with 4096%N. intros Hab Hb Ha Hy. destruct (a =? na)%N; [discriminate|]. destruct (b =? na)%N; [discriminate|].
  injection Ha as <-. injection Hy as <-. destruct tenth_value as (Ft & Pt & Nt & Et).
  set (c := real_of (f64_of_dec false 1 (-1))) in *.
  assert (G : forall z, (z < 4096)%N -> real_of (f64_mul (f64_of_Z (Z.of_N z)) (f64_of_dec false 1 (-1))) = rnd (IZR (Z.of_N z) * c)).
  { intros z Hz. destruct (f64_of_Z_exact (Z.of_N z)) as (Er & Fr & Pr & Nr); [lia|].
    destruct (f64_mul_rounds _ _ Fr Ft Pr Pt) as (_ & R & _). fold c in R. rewrite Er in R. apply R.
    apply (rnd_in_range 9); [lia|]. change (bpow radix2 (-56)) with (/ 72057594037927936) in Et. apply Rabs_le_inv in Et.
    assert (0 <= IZR (Z.of_N z) <= 4095) by (split; apply IZR_le; lia).
    rewrite Rabs_pos_eq by nra. change (bpow radix2 9) with 512. nra. }
  rewrite !G by lia. apply rnd_le. change (bpow radix2 (-56)) with (/ 72057594037927936) in Et. apply Rabs_le_inv in Et.
  apply Rmult_le_compat_r; [lra|]. apply IZR_le. lia.
Qed.

(** Any class A or B report. No speed is above the double nearest 102.2. *)
Theorem c34_speed_course_heading ovf now s p tt fff bits t so co he r p' :
  one_fragment s tt fff (armor bits) -> message_type bits t -> motion_bits t = Some (so, co, he) ->
  parse_sentence ovf now s p = (Ok r, p') ->
  exists d, r = PsVesselDynamicData d /\
    in_tenths 1023 (be_value (window bits so 10)) (vdd_sog_knots d) /\
    in_tenths 3600 (be_value (window bits co 12)) (vdd_cog d) /\
    in_units 511 (be_value (window bits he 9)) (vdd_heading_true d) /\
    (forall x top, vdd_sog_knots d = Some x -> nearest (102.2) top -> real_of x <= real_of top).
Proof.
  intros Hs Ht Hp Hr. destruct (motion_of_report _ _ _ _ _ _ _ _ _ _ _ _ _ Hs Ht Hp Hr) as (d & Er & E1 & E2 & E3).
  pose proof (unsigned_range bits so 10) as U. unfold fits in U. change (2 ^ N.of_nat 10)%N with 1024%N in U.
  exists d. rewrite E1, E2, E3. split; [exact Er|]. split; [|split; [|split]].
  - apply tenths_spec. unfold fits. change (2 ^ 12)%N with 4096%N. lia.
  - apply tenths_spec. exact (unsigned_range bits co 12).
  - apply whole_spec. pose proof (unsigned_range bits he 9) as U'. unfold fits in *.
    change (2 ^ N.of_nat 9)%N with 512%N in U'. change (2 ^ 53)%N with 9007199254740992%N. lia.
  - intros x top Hx Htop. destruct (nearest_value 7 _ _ Htop) as [-> _]; [lia|rewrite Rabs_pos_eq by lra; change (bpow radix2 7) with 128; lra|].
    assert (D : decimal_size 1022 (-1) = 102.2).
    { unfold decimal_size. change (powerRZ 10 (-1)) with (/ (10 * 1)). change (IZR (Z.of_N 1022)) with 1022. lra. }
    destruct (f64_of_dec_rounds false 1022 (-1)) as (_ & R & _). cbn [signed] in R. fold (decimal_size 1022 (-1)) in R. rewrite D in R.
    destruct R as [R _]; [apply (rnd_in_range 7); [lia|]; rewrite Rabs_pos_eq by lra; change (bpow radix2 7) with 128; lra|].
    rewrite <- R. apply (tenths_le 1023 (be_value (window bits so 10)) 1022); auto.
    + unfold tenths in Hx. destruct (N.eqb_spec (be_value (window bits so 10)) 1023); [discriminate|]. lia.
    + reflexivity.
Qed.
Print Assumptions c34_speed_course_heading.

Example c34_example :
  exists d sog cog, parse_sentence true ex_now ex_position new_parser = (Ok (PsVesselDynamicData d), new_parser) /\
    vdd_sog_knots d = Some sog /\ Rabs (real_of sog - 123 / 10) <= / 10 ^ 12 /\
    vdd_cog d = Some cog /\ Rabs (real_of cog - 2240 / 10) <= / 10 ^ 12 /\
    vdd_heading_true d = Some (f64_of_Z 215).
Proof.
  assert (H : exists r, parse_sentence true ex_now ex_position new_parser = (Ok r, new_parser)) by (eexists; vm_compute; reflexivity).
  destruct H as (r & Hr).
  destruct (c34_speed_course_heading _ _ _ _ _ _ _ 1 50 116 128 _ _ ex_position_fragment eq_refl eq_refl Hr)
    as (d & -> & Hs & Hc & _).
  replace (be_value (window ex_position_bits 50 10)) with 123%N in Hs by reflexivity.
  replace (be_value (window ex_position_bits 116 12)) with 2240%N in Hc by reflexivity.
  destruct Hs as [[Hs _]|(_ & x & Ex & _ & _ & Hs)]; [discriminate Hs|]. destruct Hc as [[Hc _]|(_ & y & Ey & _ & _ & Hc)]; [discriminate Hc|].
  exists d, x, y. repeat (split; [assumption|]).
  destruct (motion_of_report _ _ _ _ _ _ _ 1 50 116 128 _ _ ex_position_fragment eq_refl eq_refl Hr) as (d' & E & _ & _ & Hh).
  injection E as <-. exact Hh.
Qed.

(** ** C35 *)

(** A finite double as a fraction, for computations. *)
Definition fraction (x : f64) : Q :=
  match x with
  | S754_finite s m e =>
    let n := if s then Z.neg m else Z.pos m in
    (if 0 <=? e then inject_Z (n * 2 ^ e) else Qmake n (Z.to_pos (2 ^ (- e))))%Z
  | _ => 0%Q
  end.

Lemma fraction_real x : real_of x = Q2R (fraction x).
Proof.
  destruct x as [s|s| |s m e]; cbn [real_of fraction]; try (unfold Q2R; cbn; lra).
  assert (Es : (if s then - IZR (Z.pos m) else IZR (Z.pos m)) = IZR (if s then Z.neg m else Z.pos m)).
  { destruct s; [now rewrite <- opp_IZR|reflexivity]. }
  rewrite Es. set (n := if s then Z.neg m else Z.pos m). cbv zeta. rewrite powerRZ_bpow. destruct (Z.leb_spec 0 e) as [He|He].
  - unfold inject_Z, Q2R. cbn [Qnum Qden]. rewrite mult_IZR, Rinv_1, Rmult_1_r. f_equal. now rewrite <- (IZR_Zpower radix2 e).
  - unfold Q2R. cbn [Qnum Qden]. f_equal. rewrite Z2Pos.id by (apply Z.pow_pos_nonneg; lia).
    rewrite <- (Z.opp_involutive e) at 1. rewrite bpow_opp. f_equal. now rewrite <- (IZR_Zpower radix2 (- e)) by lia.
Qed.

Definition crate_turn_Q (k : Z) : Q := let y := Qmake (k * 708000) (126 * 4733) in (y * y)%Q.
Lemma crate_turn_fraction k : crate_turn k = Q2R (crate_turn_Q k).
Proof.
  unfold crate_turn, crate_turn_Q. cbv zeta. rewrite Q2R_mult. unfold Q2R. cbn [Qnum Qden]. rewrite mult_IZR. 
  change (IZR (Z.pos (126 * 4733))) with (126 * 4733)%R || (replace (IZR (Z.pos (126 * 4733))) with (126 * 4733)%R by (rewrite <- mult_IZR; reflexivity)).
  field.
Qed.

Definition turn_check (k : N) : bool :=
  let x := turn_magnitude (Z.of_N k) in
  let q := fraction x in
  let f := crate_turn_Q (Z.of_N k) in
  (match x with S754_zero false | S754_finite false _ _ => true | _ => false end &&
   Qle_bool (q - f) (1 # 10 ^ 8) && Qle_bool (f - q) (1 # 10 ^ 8))%bool.

Lemma turn_checked k : (0 <= k <= 126)%Z -> turn_check (Z.to_N k) = true.
Proof.
  intros H. assert (G : forall v, (v < N.of_nat 127)%N -> turn_check v = true).
  { apply (sweep 127 (fun v => turn_check v = true) turn_check); [auto|]. vm_compute. reflexivity. }
  apply G. lia.
Qed.

Lemma turn_magnitude_value k : (0 <= k <= 126)%Z ->
  finite (turn_magnitude k) /\ Rabs (real_of (turn_magnitude k) - crate_turn k) <= / 10 ^ 8.
Proof.
  intros H. pose proof (turn_checked k H) as C. unfold turn_check in C. rewrite Z2N.id in C by lia.
  apply andb_true_iff in C as [C C3]. apply andb_true_iff in C as [C1 C2]. split.
  - destruct (turn_magnitude k); try discriminate; exact Logic.I.
  - rewrite fraction_real, crate_turn_fraction. apply Qle_bool_iff, Qle_Rle in C2, C3. rewrite Q2R_minus in C2, C3.
    assert (E : Q2R (1 # 10 ^ 8) = / 10 ^ 8) by (unfold Q2R; cbn [Qnum Qden]; change (Z.pos (10 ^ 8)) with (100000000)%Z; lra).
    rewrite E in C2, C3. apply Rabs_le. lra.
Qed.

Lemma turn_of_report ovf now s p tt fff bits t r p' :
  one_fragment s tt fff (armor bits) -> message_type bits t -> (t = 1 \/ t = 2 \/ t = 3)%N ->
  parse_sentence ovf now s p = (Ok r, p') ->
  exists d, r = PsVesselDynamicData d /\
    vdd_rot d = reported_turn (signed_value (window bits 42 8)) /\
    vdd_rot_direction d = turn_direction (signed_value (window bits 42 8)) /\
    vdd_special_manoeuvre d = reported_manoeuvre (be_value (window bits 143 2)).
Proof.
  intros Hs Ht Hp Hr. rewrite (one_fragment_bits _ _ _ _ _ _ _ Hs) in Hr. unfold message_type in Ht.
  unfold dispatch_message in Hr. rewrite pick_u64_spec, Ht in Hr by lia.
  rewrite <- turn_value, <- direction_value by exact (signed_range bits 42 7).
  rewrite <- (pick_i64_spec bits 42 7) by lia. rewrite <- manoeuvre_value, <- (pick_u64_spec bits 143 2) by lia.
  destruct Hp as [-> |[-> | ->]];
    (apply pair_equal_spec in Hr as [Hr _]); injection Hr as <-; eexists; (split; [reflexivity|]); auto.
Qed.

Lemma crate_turn_step a b : (0 <= a < b)%Z -> crate_turn a + 1 <= crate_turn b.
Proof.
  intros [H0 H]. unfold crate_turn. assert (H1 : (a + 1 <= b)%Z) by lia. apply IZR_le in H0, H1. rewrite plus_IZR in H1.
  set (x := IZR a) in *. set (y := IZR b) in *.
  replace (x * 708 / 126 / 4.733) with (x * (708000 / 596358)) by lra.
  replace (y * 708 / 126 / 4.733) with (y * (708000 / 596358)) by lra.
  assert (1 <= 708000 / 596358) by lra. set (c := 708000 / 596358) in *.
  assert (x * c + 1 <= y * c) by nra. assert (0 <= x * c) by nra. nra.
Qed.

Lemma reported_turn_real raw x : reported_turn raw = Some x ->
  (Z.abs raw <= 126)%Z /\ finite x /\
  real_of x = (if (raw <? 0)%Z then - real_of (turn_magnitude (Z.abs raw)) else real_of (turn_magnitude (Z.abs raw))).
Proof.
  unfold reported_turn. destruct (Z.leb_spec (Z.abs raw) 126) as [H|H]; [|discriminate]. intros E. injection E as <-.
  destruct (turn_magnitude_value (Z.abs raw)) as [F _]; [lia|].
  split; [exact H|]. destruct (raw <? 0)%Z; [|auto]. rewrite f64_neg_real. split; [now apply f64_neg_finite|reflexivity].
Qed.

Lemma turn_magnitude_0 : real_of (turn_magnitude 0) = 0.
Proof. reflexivity. Qed.

(** Rates of turn in the order of the indicator, and symmetric. *)
Lemma turn_magnitude_lt a b : (0 <= a < b)%Z -> (b <= 126)%Z -> real_of (turn_magnitude a) < real_of (turn_magnitude b).
Proof.
  intros H Hb. pose proof (crate_turn_step a b H). destruct (turn_magnitude_value a) as [_ A]; [lia|].
  destruct (turn_magnitude_value b) as [_ B]; [lia|]. apply Rabs_le_inv in A, B. lra.
Qed.

Lemma turn_magnitude_pos a : (0 <= a <= 126)%Z -> 0 <= real_of (turn_magnitude a) /\ ((0 < a)%Z -> 0 < real_of (turn_magnitude a)).
Proof.
  intros H. destruct (Z.eq_dec a 0) as [-> |Ha].
  - rewrite turn_magnitude_0. split; [lra|lia].
  - pose proof (turn_magnitude_lt 0 a ltac:(lia) ltac:(lia)) as L. rewrite turn_magnitude_0 in L. split; [lra|auto].
Qed.

Lemma turn_lt a b x y : reported_turn a = Some x -> reported_turn b = Some y -> (a < b)%Z -> real_of x < real_of y.
Proof.
  intros Ha Hb H. apply reported_turn_real in Ha as (Ra & _ & ->), Hb as (Rb & _ & ->).
  pose proof (turn_magnitude_pos (Z.abs a) ltac:(lia)) as [A1 A2]. pose proof (turn_magnitude_pos (Z.abs b) ltac:(lia)) as [B1 B2].
  destruct (Z.ltb_spec a 0), (Z.ltb_spec b 0).
  - pose proof (turn_magnitude_lt (Z.abs b) (Z.abs a) ltac:(lia) ltac:(lia)). lra.
  - specialize (A2 ltac:(lia)). lra.
  - lia.
  - apply turn_magnitude_lt; lia.
Qed.

(** What is reported for each indicator value of a class A report: availability, sign, size (with the
    crate's formula) and direction. In the documented range only up to 22. *)
Theorem c35_turn_partial ovf now s p tt fff bits t r p' raw :
  one_fragment s tt fff (armor bits) -> message_type bits t -> (t = 1 \/ t = 2 \/ t = 3)%N ->
  raw = signed_value (window bits 42 8) ->
  parse_sentence ovf now s p = (Ok r, p') ->
  exists d, r = PsVesselDynamicData d /\
    (vdd_rot d = None <-> (126 < Z.abs raw)%Z) /\
    (forall x, vdd_rot d = Some x ->
       finite x /\ (real_of x < 0 <-> (raw < 0)%Z) /\ (0 < real_of x <-> (0 < raw)%Z) /\
       Rabs (Rabs (real_of x) - crate_turn (Z.abs raw)) <= / 10 ^ 8 /\
       (Rabs (real_of x) <= 708 <-> (Z.abs raw <= 22)%Z)) /\
    vdd_rot_direction d =
      (if Z.eq_dec raw (-128) then None else if Z_lt_dec raw (-1) then Some (-1)%Z
       else if Z_lt_dec 1 raw then Some 1%Z else Some 0%Z).
Proof.
  intros Hs Ht Hp -> Hr. set (raw := signed_value (window bits 42 8)).
  destruct (turn_of_report _ _ _ _ _ _ _ _ _ _ Hs Ht Hp Hr) as (d & Er & E1 & E2 & _). fold raw in E1, E2.
  pose proof (signed_range bits 42 7) as R. fold raw in R. clearbody raw.
  exists d. rewrite E1, E2. split; [exact Er|]. split; [|split].
  - unfold reported_turn. destruct (Z.leb_spec (Z.abs raw) 126); split; intros; (discriminate || lia || reflexivity).
  - intros x Hx. destruct (reported_turn_real _ _ Hx) as (R' & F & V). split; [exact F|].
    pose proof (turn_magnitude_pos (Z.abs raw) ltac:(lia)) as [P1 P2]. destruct (turn_magnitude_value (Z.abs raw)) as [_ M]; [lia|].
    assert (A : Rabs (real_of x) = real_of (turn_magnitude (Z.abs raw))).
    { rewrite V. destruct (raw <? 0)%Z; [rewrite Rabs_Ropp|]; now apply Rabs_pos_eq. }
    rewrite A. destruct (Z.eq_dec raw 0) as [Z0|Z0].
    + subst raw. change (Z.abs 0) with 0%Z in *. assert (V0 : real_of x = 0) by (rewrite V; exact turn_magnitude_0).
      rewrite turn_magnitude_0 in M |- *. rewrite V0. repeat split; try lra; try lia; intros; (lra || lia || assumption).
    + specialize (P2 ltac:(lia)). split; [|split; [|split; [exact M|]]].
      * rewrite V. destruct (Z.ltb_spec raw 0); split; intros; (lra || lia).
      * rewrite V. destruct (Z.ltb_spec raw 0); split; intros; (lra || lia).
      * apply Rabs_le_inv in M. 
        assert (C22 : crate_turn 22 <= 683) by (unfold crate_turn; lra).
        assert (C23 : 745 <= crate_turn 23) by (unfold crate_turn; lra).
        split; intros L.
        -- destruct (Z.le_gt_cases (Z.abs raw) 22) as [|G]; [assumption|]. exfalso.
           destruct (Z.eq_dec (Z.abs raw) 23) as [E|E]; [rewrite E in *; lra|].
           pose proof (crate_turn_step 23 (Z.abs raw) ltac:(lia)). lra.
        -- destruct (Z.eq_dec (Z.abs raw) 22) as [E|E]; [rewrite E in *; lra|].
           pose proof (crate_turn_step (Z.abs raw) 22 ltac:(lia)). lra.
  - unfold turn_direction. unfold fits_signed in R. cbn in R.
    destruct (Z.eqb_spec raw (-128)) as [E|E], (Z.eq_dec raw (-128)) as [E'|E']; try lia; [reflexivity|].
    destruct (Z.leb_spec (Z.abs raw) 1), (Z_lt_dec raw (-1)), (Z_lt_dec 1 raw); try lia; try reflexivity; f_equal; lia.
Qed.
Print Assumptions c35_turn_partial.

(** A larger indicator means a larger rate of turn; opposite indicators mean opposite rates. *)
Theorem c35_turn_order ovf now s1 s2 p1 p2 tt1 tt2 fff1 fff2 bits1 bits2 t1 t2 d1 d2 p1' p2' x1 x2 raw1 raw2 :
  one_fragment s1 tt1 fff1 (armor bits1) -> message_type bits1 t1 -> (t1 = 1 \/ t1 = 2 \/ t1 = 3)%N ->
  one_fragment s2 tt2 fff2 (armor bits2) -> message_type bits2 t2 -> (t2 = 1 \/ t2 = 2 \/ t2 = 3)%N ->
  raw1 = signed_value (window bits1 42 8) -> raw2 = signed_value (window bits2 42 8) ->
  parse_sentence ovf now s1 p1 = (Ok (PsVesselDynamicData d1), p1') -> vdd_rot d1 = Some x1 ->
  parse_sentence ovf now s2 p2 = (Ok (PsVesselDynamicData d2), p2') -> vdd_rot d2 = Some x2 ->
  ((raw1 < raw2)%Z -> real_of x1 < real_of x2) /\ ((raw1 = - raw2)%Z -> real_of x1 = - real_of x2).
Proof.
  intros S1 T1 B1 S2 T2 B2 -> -> R1 X1 R2 X2.
  destruct (turn_of_report _ _ _ _ _ _ _ _ _ _ S1 T1 B1 R1) as (d & E & Ea & _). injection E as <-.
  destruct (turn_of_report _ _ _ _ _ _ _ _ _ _ S2 T2 B2 R2) as (d & E & Eb & _). injection E as <-.
  rewrite X1 in Ea. rewrite X2 in Eb. symmetry in Ea, Eb. split; intros H.
  - exact (turn_lt _ _ _ _ Ea Eb H).
  - apply reported_turn_real in Ea as (Ra & _ & ->), Eb as (Rb & _ & ->). rewrite H, Z.abs_opp in *.
    set (b := signed_value (window bits2 42 8)) in *. destruct (Z.eq_dec b 0) as [-> |Hb].
    + change (- 0)%Z with 0%Z. change (Z.abs 0) with 0%Z. change (0 <? 0)%Z with false. cbn iota. rewrite turn_magnitude_0. lra.
    + destruct (Z.ltb_spec (- b) 0), (Z.ltb_spec b 0); try lia; lra.
Qed.
Print Assumptions c35_turn_order.

(** The documented range is exceeded: an indicator of 126 (708 degrees per minute) is reported as
    more than 22376 degrees per minute. *)
Definition ex_turn_bits : list bool := layout_bits
  [U 6 1; U 2 0; U 30 371798000; U 4 0; I 8 126; U 10 0; F true; I 28 0; I 27 0;
   U 12 0; U 9 0; U 6 0; U 2 1; U 3 0; F false; U 19 0].
Definition ex_turn : str := encode_sentence (lit "AI") (lit "VDM") (lit "A") ex_turn_bits.
Lemma ex_turn_fragment : one_fragment ex_turn (lit "AI") (lit "VDM") (armor ex_turn_bits).
Proof. apply encode_sentence_one_fragment; [reflexivity|now apply plain_lit_dec|now left|now apply plain_lit_dec]. Qed.

Theorem c35_range_refuted :
  exists d x, parse_sentence true ex_now ex_turn new_parser = (Ok (PsVesselDynamicData d), new_parser) /\
    vdd_rot d = Some x /\ 22376 < real_of x.
Proof.
  assert (H : exists r, parse_sentence true ex_now ex_turn new_parser = (Ok r, new_parser)) by (eexists; vm_compute; reflexivity).
  destruct H as (r & Hr).
  destruct (c35_turn_partial _ _ _ _ _ _ _ 1 _ _ 126 ex_turn_fragment eq_refl ltac:(auto) eq_refl Hr) as (d & -> & HN & HS & _).
  destruct (vdd_rot d) as [x|] eqn:Ex; [|exfalso; pose proof (proj1 HN eq_refl) as C; vm_compute in C; discriminate C].
  exists d, x. split; [exact Hr|]. split; [exact Ex|]. destruct (HS x eq_refl) as (_ & _ & HP & HV & _).
  rewrite (Rabs_pos_eq (real_of x)) in HV by (apply Rlt_le, HP; lia). apply Rabs_le_inv in HV. change (Z.abs 126) with 126%Z in HV. unfold crate_turn in HV. lra.
Qed.
Print Assumptions c35_range_refuted.

Example c35_example :
  exists d, parse_sentence true ex_now ex_position new_parser = (Ok (PsVesselDynamicData d), new_parser) /\
    vdd_rot d = None /\ vdd_rot_direction d = Some (-1)%Z.
Proof.
  assert (H : exists r, parse_sentence true ex_now ex_position new_parser = (Ok r, new_parser)) by (eexists; vm_compute; reflexivity).
  destruct H as (r & Hr).
  destruct (c35_turn_partial _ _ _ _ _ _ _ 1 _ _ (-127) ex_position_fragment eq_refl ltac:(auto) eq_refl Hr) as (d & -> & HN & _ & HD).
  exists d. split; [exact Hr|]. split; [apply HN; reflexivity|exact HD].
Qed.

(** ** C36 *)

(** The indicator 1 (not engaged) and 2 (engaged) both give true; nothing gives false. *)
Theorem c36_manoeuvre_partial ovf now s p tt fff bits t r p' :
  one_fragment s tt fff (armor bits) -> message_type bits t -> (t = 1 \/ t = 2 \/ t = 3)%N ->
  parse_sentence ovf now s p = (Ok r, p') ->
  exists d, r = PsVesselDynamicData d /\
    (vdd_special_manoeuvre d = Some true <-> window bits 143 2 = [false; true] \/ window bits 143 2 = [true; false]) /\
    vdd_special_manoeuvre d <> Some false.
Proof.
  intros Hs Ht Hp Hr. destruct (turn_of_report _ _ _ _ _ _ _ _ _ _ Hs Ht Hp Hr) as (d & Er & _ & _ & E).
  exists d. rewrite E. split; [exact Er|]. unfold window. cbn [seq map].
  destruct (nth 143 bits false), (nth 144 bits false); cbn; (split; [split|]);
    try discriminate; try (intros [X|X]; discriminate X); auto.
Qed.
Print Assumptions c36_manoeuvre_partial.

Theorem c36_not_engaged_refuted :
  exists d, parse_sentence true ex_now ex_turn new_parser = (Ok (PsVesselDynamicData d), new_parser) /\
    be_value (window ex_turn_bits 143 2) = 1%N /\ vdd_special_manoeuvre d = Some true.
Proof.
  assert (H : exists r, parse_sentence true ex_now ex_turn new_parser = (Ok r, new_parser)) by (eexists; vm_compute; reflexivity).
  destruct H as (r & Hr).
  destruct (c36_manoeuvre_partial _ _ _ _ _ _ _ 1 _ _ ex_turn_fragment eq_refl ltac:(auto) Hr) as (d & -> & HS & _).
  exists d. split; [exact Hr|]. split; [reflexivity|]. apply HS. left. reflexivity.
Qed.
Print Assumptions c36_not_engaged_refuted.
