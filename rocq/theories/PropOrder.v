(** C88: positions, speeds, courses and headings keep the order of the transmitted numbers. *)
From Coq Require Import List NArith ZArith Bool String Lia QArith Qreals Reals Lra Floats.SpecFloat.
From Flocq Require Import Core.
From Verif Require Import Base Str F64 Chrono Types Util AisMod Vdm Gnss Parser
  SpecText SpecResult SpecAis SpecTime SpecReal SpecMeasure StrFacts FrontFacts CallFacts ResultFacts BitFacts
  VdmFacts LayoutFacts FloatFacts DecimalFacts FieldFacts PropFront PropMeasure SpecFields SpecWriting PropFields.
Import ListNotations.
Open Scope R_scope.

Local Opaque pick_string pick_u64 pick_i64 f64_div f64_mul f64_of_Z f64_of_dec.

Lemma coordinate_order na a b x y : (Z.abs a <= 2 ^ 27)%Z -> (Z.abs b <= 2 ^ 27)%Z ->
  coordinate na a (Some x) -> coordinate na b (Some y) -> (real_of x < real_of y <-> (a < b)%Z).
Proof.
  intros Ha Hb [[_ E]|(_ & x' & Ex & Hx)] [[_ E']|(_ & y' & Ey & Hy)]; try discriminate.
  injection Ex as <-. injection Ey as <-. apply raw_small in Ha, Hb.
  destruct (nearest_value 8 _ _ Hx) as [_ E1]; [lia|exact Ha|]. destruct (nearest_value 8 _ _ Hy) as [_ E2]; [lia|exact Hb|].
  rewrite bpow_m45 in *. apply Rabs_le_inv in E1, E2. split; intros L.
  - assert (A : IZR (a - b) < 1) by (rewrite minus_IZR; lra). apply lt_IZR in A.
    destruct (Z.eq_dec a b) as [->|N]; [|lia]. exfalso.
    assert (Eq : real_of x = real_of y); [|lra].
    destruct (nearest_value 8 _ _ Hx) as [-> _]; [lia|exact Ha|]. destruct (nearest_value 8 _ _ Hy) as [-> _]; [lia|exact Hb|]. reflexivity.
  - assert (A : IZR 1 <= IZR (b - a)) by (apply IZR_le; lia). rewrite minus_IZR in A. lra.
Qed.

(** One place is further north (east) than the other exactly if its transmitted value is greater. *)
Theorem c88_positions ovf now1 now2 s1 s2 p1 p2 tt1 tt2 fff1 fff2 bits1 bits2 t1 t2 lo1 lo2 la1 la2
    r1 r2 p1' p2' lat1 lat2 lon1 lon2 :
  one_fragment s1 tt1 fff1 (armor bits1) -> message_type bits1 t1 -> position_bits t1 = Some (lo1, la1) ->
  one_fragment s2 tt2 fff2 (armor bits2) -> message_type bits2 t2 -> position_bits t2 = Some (lo2, la2) ->
  parse_sentence ovf now1 s1 p1 = (Ok r1, p1') -> position r1 = Some (lat1, lon1) ->
  parse_sentence ovf now2 s2 p2 = (Ok r2, p2') -> position r2 = Some (lat2, lon2) ->
  (forall x y, lat1 = Some x -> lat2 = Some y ->
    (real_of x < real_of y <-> (signed_value (window bits1 la1 27) < signed_value (window bits2 la2 27))%Z)) /\
  (forall x y, lon1 = Some x -> lon2 = Some y ->
    (real_of x < real_of y <-> (signed_value (window bits1 lo1 28) < signed_value (window bits2 lo2 28))%Z)).
Proof.
  intros S1 T1 B1 S2 T2 B2 R1 P1 R2 P2.
  destruct (c32_nearest_coordinates _ _ _ _ _ _ _ _ _ _ _ _ S1 T1 B1 R1) as (x1 & y1 & E1 & C1 & D1).
  destruct (c32_nearest_coordinates _ _ _ _ _ _ _ _ _ _ _ _ S2 T2 B2 R2) as (x2 & y2 & E2 & C2 & D2).
  rewrite P1 in E1. injection E1 as <- <-. rewrite P2 in E2. injection E2 as <- <-.
  split; intros x y -> ->.
  - apply (coordinate_order latitude_na); auto; (eapply Z.le_trans; [apply (signed_abs _ _ 26); lia|lia]).
  - apply (coordinate_order longitude_na); auto; apply (signed_abs _ _ 27); lia.
Qed.
Print Assumptions c88_positions.

Lemma tenths_order na a b x y : fits 12 a -> fits 12 b -> tenths na a = Some x -> tenths na b = Some y ->
  (real_of x < real_of y <-> (a < b)%N).
Proof.
  intros Fa Fb Ha Hb. pose proof (tenths_spec na a Fa) as A. pose proof (tenths_spec na b Fb) as B.
  rewrite Ha in A. rewrite Hb in B. destruct A as [[_ A]|(_ & x' & Ex & _ & _ & A)]; [discriminate|].
  destruct B as [[_ B]|(_ & y' & Ey & _ & _ & B)]; [discriminate|]. injection Ex as <-. injection Ey as <-.
  apply Rabs_le_inv in A, B. split; intros L.
  - destruct (N.lt_ge_cases a b) as [|G]; [assumption|exfalso].
    pose proof (tenths_le na b a y x G Fa Hb Ha). lra.
  - assert (D : IZR 1 <= IZR (Z.of_N b - Z.of_N a)) by (apply IZR_le; lia). rewrite minus_IZR in D. lra.
Qed.

Lemma whole_order na a b x y : fits 53 a -> fits 53 b -> whole na a = Some x -> whole na b = Some y ->
  (real_of x < real_of y <-> (a < b)%N).
Proof.
  intros Fa Fb Ha Hb. pose proof (whole_spec na a Fa) as A. pose proof (whole_spec na b Fb) as B.
  rewrite Ha in A. rewrite Hb in B. destruct A as [[_ A]|(_ & x' & Ex & _ & A)]; [discriminate|].
  destruct B as [[_ B]|(_ & y' & Ey & _ & B)]; [discriminate|]. injection Ex as <-. injection Ey as <-.
  rewrite A, B. split; intros L; [apply lt_IZR in L; lia|apply IZR_lt; lia].
Qed.

(** One vessel is faster than (its course or heading is to the right of) the other exactly if its transmitted
    value is greater. *)
Theorem c88_motion ovf now1 now2 s1 s2 p1 p2 tt1 tt2 fff1 fff2 bits1 bits2 t1 t2 so1 so2 co1 co2 he1 he2 d1 d2 p1' p2' :
  one_fragment s1 tt1 fff1 (armor bits1) -> message_type bits1 t1 -> motion_bits t1 = Some (so1, co1, he1) ->
  one_fragment s2 tt2 fff2 (armor bits2) -> message_type bits2 t2 -> motion_bits t2 = Some (so2, co2, he2) ->
  parse_sentence ovf now1 s1 p1 = (Ok (PsVesselDynamicData d1), p1') ->
  parse_sentence ovf now2 s2 p2 = (Ok (PsVesselDynamicData d2), p2') ->
  (forall x y, vdd_sog_knots d1 = Some x -> vdd_sog_knots d2 = Some y ->
    (real_of x < real_of y <-> (be_value (window bits1 so1 10) < be_value (window bits2 so2 10))%N)) /\
  (forall x y, vdd_cog d1 = Some x -> vdd_cog d2 = Some y ->
    (real_of x < real_of y <-> (be_value (window bits1 co1 12) < be_value (window bits2 co2 12))%N)) /\
  (forall x y, vdd_heading_true d1 = Some x -> vdd_heading_true d2 = Some y ->
    (real_of x < real_of y <-> (be_value (window bits1 he1 9) < be_value (window bits2 he2 9))%N)).
Proof.
  intros S1 T1 B1 S2 T2 B2 R1 R2.
  destruct (motion_of_report _ _ _ _ _ _ _ _ _ _ _ _ _ S1 T1 B1 R1) as (d & E & Es1 & Ec1 & Eh1). injection E as <-.
  destruct (motion_of_report _ _ _ _ _ _ _ _ _ _ _ _ _ S2 T2 B2 R2) as (d & E & Es2 & Ec2 & Eh2). injection E as <-.
  rewrite Es1, Es2, Ec1, Ec2, Eh1, Eh2.
  assert (U : forall b i n k, (N.of_nat n <= k)%N -> fits k (be_value (window b i n))).
  { intros b i n k L. pose proof (unsigned_range b i n) as H. unfold fits in *. eapply N.lt_le_trans; [exact H|].
    apply N.pow_le_mono_r; lia. }
  split; [|split]; intros x y Hx Hy.
  - eapply tenths_order; eauto; apply U; lia.
  - eapply tenths_order; eauto; apply U; lia.
  - eapply whole_order; eauto; apply U; lia.
Qed.
Print Assumptions c88_motion.

(** *** Coordinates as text *)

Lemma angle_order d1 m1 d2 m2 : (d1 < 1000)%N -> (d2 < 1000)%N -> 0 <= m1 < 60 -> 0 <= m2 < 60 ->
  IZR (Z.of_N d1) + m1 / 60 <= IZR (Z.of_N d2) + m2 / 60 ->
  rnd (IZR (Z.of_N d1) + rnd (rnd m1 / 60)) <= rnd (IZR (Z.of_N d2) + rnd (rnd m2 / 60)).
Proof.
  intros D1 D2 M1 M2 L. apply rnd_le.
  assert (Q : forall m, 0 <= m < 60 -> 0 <= rnd (rnd m / 60) <= 1).
  { intros m Hm. assert (A : 0 <= rnd m <= 60).
    { split; [apply rnd_nonneg; lra|]. rewrite <- (rnd_nat 60) by lia. apply rnd_le. lra. }
    split; [apply rnd_nonneg; lra|]. rewrite <- (rnd_nat 1) by lia. apply rnd_le. lra. }
  destruct (Z.lt_trichotomy (Z.of_N d1) (Z.of_N d2)) as [K|[K|K]].
  - pose proof (Q m1 M1). pose proof (Q m2 M2). assert (A : IZR (Z.of_N d1 + 1) <= IZR (Z.of_N d2)) by (apply IZR_le; lia).
    rewrite plus_IZR in A. lra.
  - rewrite K in *. apply Rplus_le_compat_l, rnd_le. assert (rnd m1 <= rnd m2) by (apply rnd_le; lra). lra.
  - exfalso. assert (A : IZR (Z.of_N d2 + 1) <= IZR (Z.of_N d1)) by (apply IZR_le; lia). rewrite plus_IZR in A. lra.
Qed.

Lemma coordinate_rounded ovf now s tt fff fields p r n minus i j x d m v :
  gnss_with s tt fff fields -> In fff [lit "GGA"; lit "RMC"; lit "GLL"] ->
  clock now -> (0 <= dt_year now)%Z -> fst (parse_sentence ovf now s p) = Ok r ->
  In (n, minus, i, j, Some x) (coordinates r) -> degrees_minutes n (fld fields i) d m -> m < 60 ->
  written_angle d m (fld fields j = minus) v ->
  (d < 1000)%N /\ 0 <= m < 60 /\
  let c := rnd (IZR (Z.of_N d) + rnd (rnd m / 60)) in
  0 <= c /\ (v = IZR (Z.of_N d) + m / 60 /\ real_of x = c \/ v = - (IZR (Z.of_N d) + m / 60) /\ real_of x = - c).
Proof.
  intros Hs Hf Hc Hy Hr Hi D M60 [Wm Wp].
  assert (Hf' : In fff [lit "GGA"; lit "RMC"; lit "GSA"; lit "GLL"; lit "VTG"]) by (cbn [In] in *; tauto).
  pose proof (gnss_ok ovf now s tt fff fields p r _ Hs (names_system_nav tt) Hf' Hc Hy Hr) as R.
  apply (report_coordinates _ _ _ _ _ n minus i j (Some x)) in R as [Hn V]; [|exact Hi].
  inversion V as [|x' Nf A Ex]; subst x'. destruct A as (d' & mi & m' & q & y & D' & N1 & N2 & N3 & S & Hm & Hp).
  destruct (degrees_minutes_unique _ _ _ _ _ _ D D') as [<- <-].
  assert (Hn3 : (n <= 3)%nat) by (destruct Hn as [[-> _]|[-> _]]; lia).
  destruct (degrees_minutes_bound _ _ _ _ Hn3 D) as [B1 B2].
  pose proof (angle_steps _ _ m' q y B1 B2 N1 N2 N3) as E. destruct (angle_bounds _ _ B1 B2) as (_ & (Q & _) & (Yb & _)).
  split; [exact B1|]. split; [lra|]. cbn zeta. split; [lra|].
  destruct (str_eqb_spec (fld fields j) minus) as [Ej|Ej].
  - right. split; [auto|]. now rewrite (Hm Ej), f64_neg_real, E.
  - left. split; [auto|]. now rewrite (Hp Ej), E.
Qed.

(** Of two latitudes (or longitudes) written as text, minutes below 60, the lower gives the lower number or,
    if they are too close for doubles, the same. *)
Theorem c88_text_positions ovf now1 now2 s1 s2 tt1 tt2 fff1 fff2 fs1 fs2 p1 p2 r1 r2 n minus i1 i2 j1 j2 x1 x2 d1 d2 m1 m2 v1 v2 :
  gnss_with s1 tt1 fff1 fs1 -> In fff1 [lit "GGA"; lit "RMC"; lit "GLL"] -> clock now1 -> (0 <= dt_year now1)%Z ->
  gnss_with s2 tt2 fff2 fs2 -> In fff2 [lit "GGA"; lit "RMC"; lit "GLL"] -> clock now2 -> (0 <= dt_year now2)%Z ->
  fst (parse_sentence ovf now1 s1 p1) = Ok r1 -> In (n, minus, i1, j1, Some x1) (coordinates r1) ->
  fst (parse_sentence ovf now2 s2 p2) = Ok r2 -> In (n, minus, i2, j2, Some x2) (coordinates r2) ->
  degrees_minutes n (fld fs1 i1) d1 m1 -> m1 < 60 -> written_angle d1 m1 (fld fs1 j1 = minus) v1 ->
  degrees_minutes n (fld fs2 i2) d2 m2 -> m2 < 60 -> written_angle d2 m2 (fld fs2 j2 = minus) v2 ->
  v1 <= v2 -> real_of x1 <= real_of x2.
Proof.
  intros S1 F1 C1 Y1 S2 F2 C2 Y2 R1 I1 R2 I2 D1 M1 W1 D2 M2 W2 L.
  destruct (coordinate_rounded _ _ _ _ _ _ _ _ _ _ _ _ _ _ _ _ S1 F1 C1 Y1 R1 I1 D1 M1 W1) as (B1 & N1 & P1 & K1).
  destruct (coordinate_rounded _ _ _ _ _ _ _ _ _ _ _ _ _ _ _ _ S2 F2 C2 Y2 R2 I2 D2 M2 W2) as (B2 & N2 & P2 & K2).
  assert (Z0 : forall d m, 0 <= m < 60 -> 0 <= IZR (Z.of_N d) + m / 60).
  { intros d m Hm. assert (0 <= IZR (Z.of_N d)) by (apply IZR_le; lia). lra. }
  destruct K1 as [[E1 ->]|[E1 ->]], K2 as [[E2 ->]|[E2 ->]].
  - apply angle_order; auto. lra.
  - assert (X1 := Z0 d1 m1 N1). assert (X2 := Z0 d2 m2 N2).
    assert (A1 : IZR (Z.of_N d1) + m1 / 60 <= IZR (Z.of_N 0) + 0 / 60) by (cbn; lra).
    assert (A2 : IZR (Z.of_N d2) + m2 / 60 <= IZR (Z.of_N 0) + 0 / 60) by (cbn; lra).
    apply angle_order in A1; auto; try lra; try lia. apply angle_order in A2; auto; try lra; try lia.
    assert (E0 : rnd (IZR (Z.of_N 0) + rnd (rnd 0 / 60)) = 0).
    { rewrite rnd_0. replace (0 / 60) with 0 by lra. rewrite rnd_0. change (IZR (Z.of_N 0)) with 0. rewrite Rplus_0_l. apply rnd_0. }
    rewrite E0 in A1, A2. lra.
  - lra.
  - apply Ropp_le_contravar. apply angle_order; auto. lra.
Qed.
Print Assumptions c88_text_positions.

(** *** Numbers as text *)

(** Of two decimal numbers the lower gives the lower double or, if they are too close, the same. *)
Theorem c88_decimals ovf now1 now2 s1 s2 tt1 tt2 fff1 fff2 fs1 fs2 p1 p2 r1 r2 i1 i2 x1 x2 neg1 neg2 n1 n2 e1 e2 :
  gnss_with s1 tt1 fff1 fs1 -> In fff1 [lit "GGA"; lit "RMC"; lit "GSA"; lit "VTG"] -> clock now1 -> (0 <= dt_year now1)%Z ->
  gnss_with s2 tt2 fff2 fs2 -> In fff2 [lit "GGA"; lit "RMC"; lit "GSA"; lit "VTG"] -> clock now2 -> (0 <= dt_year now2)%Z ->
  fst (parse_sentence ovf now1 s1 p1) = Ok r1 -> In (i1, Some x1) (decimals r1) ->
  fst (parse_sentence ovf now2 s2 p2) = Ok r2 -> In (i2, Some x2) (decimals r2) ->
  decimal (fld fs1 i1) neg1 n1 e1 -> decimal_size n1 e1 < double_overflow ->
  decimal (fld fs2 i2) neg2 n2 e2 -> decimal_size n2 e2 < double_overflow ->
  (if neg1 then - decimal_size n1 e1 else decimal_size n1 e1) <= (if neg2 then - decimal_size n2 e2 else decimal_size n2 e2) ->
  real_of x1 <= real_of x2.
Proof.
  intros S1 F1 C1 Y1 S2 F2 C2 Y2 R1 I1 R2 I2 D1 O1 D2 O2 L.
  destruct (c47_nearest_double _ _ _ _ _ _ _ _ _ _ _ _ _ S1 F1 C1 Y1 R1 I1 D1 O1) as (x & E & _ & _ & N1). injection E as <-.
  destruct (c47_nearest_double _ _ _ _ _ _ _ _ _ _ _ _ _ S2 F2 C2 Y2 R2 I2 D2 O2) as (x & E & _ & _ & N2). injection E as <-.
  assert (G : forall (neg : bool) n e x, decimal_size n e < double_overflow ->
    nearest (if neg then - decimal_size n e else decimal_size n e) x ->
    real_of x = rnd (if neg then - decimal_size n e else decimal_size n e)).
  { intros neg n e x O N. apply nearest_is_rnd; [exact N|].
    assert (P : 0 <= decimal_size n e).
    { unfold decimal_size. apply Rmult_le_pos; [apply IZR_le; lia|]. apply Rlt_le, powerRZ_lt. lra. }
    apply rnd_overflow in O; [|exact P]. pose proof (rnd_nonneg _ P). destruct neg; rewrite ?rnd_opp, ?Rabs_Ropp, Rabs_pos_eq; auto. }
  rewrite (G _ _ _ _ O1 N1), (G _ _ _ _ O2 N2). now apply rnd_le.
Qed.
Print Assumptions c88_decimals.

(** The crate's test sentence, and the same vessel 1/10000 of a minute further north, 0.1 knots faster and
    heading one degree further right. *)
Definition ex_next : str := lit "!AIVDM,1,1,,A,15RTgt0PAto;90TKcjMHh6i208CQ,0*33".
Definition ex_next_bits : list bool := layout_bits
  [U 6 1; U 2 0; U 30 371798000; U 4 0; I 8 (-127); U 10 124; F true; I 28 (-74037230); I 27 29028981;
   U 12 2240; U 9 216; U 6 33; U 2 0; U 3 0; F false; U 19 34017].
Lemma ex_next_fragment : one_fragment ex_next (lit "AI") (lit "VDM") (armor ex_next_bits).
Proof. apply (check_one_fragment _ _ _ (lit "A") _ [lit "0"]). apply check_vdm; [|reflexivity]. vm_compute. auto. Qed.

Example c88_example :
  exists d1 d2 lat1 lat2 sog1 sog2 he1 he2,
    parse_sentence true ex_now ex_position new_parser = (Ok (PsVesselDynamicData d1), new_parser) /\
    parse_sentence true ex_now ex_next new_parser = (Ok (PsVesselDynamicData d2), new_parser) /\
    vdd_latitude d1 = Some lat1 /\ vdd_latitude d2 = Some lat2 /\ real_of lat1 < real_of lat2 /\
    vdd_sog_knots d1 = Some sog1 /\ vdd_sog_knots d2 = Some sog2 /\ real_of sog1 < real_of sog2 /\
    vdd_heading_true d1 = Some he1 /\ vdd_heading_true d2 = Some he2 /\ real_of he1 < real_of he2.
Proof.
  assert (H : exists d1 d2 lat1 lat2 sog1 sog2 he1 he2 lon1 lon2,
    parse_sentence true ex_now ex_position new_parser = (Ok (PsVesselDynamicData d1), new_parser) /\
    parse_sentence true ex_now ex_next new_parser = (Ok (PsVesselDynamicData d2), new_parser) /\
    vdd_latitude d1 = Some lat1 /\ vdd_latitude d2 = Some lat2 /\
    vdd_sog_knots d1 = Some sog1 /\ vdd_sog_knots d2 = Some sog2 /\
    vdd_heading_true d1 = Some he1 /\ vdd_heading_true d2 = Some he2 /\
    vdd_longitude d1 = lon1 /\ vdd_longitude d2 = lon2).
  { do 10 eexists. split; [vm_compute; reflexivity|]. split; [vm_compute; reflexivity|]. repeat split. }
  destruct H as (d1 & d2 & lat1 & lat2 & sog1 & sog2 & he1 & he2 & lon1 & lon2 & R1 & R2 & A1 & A2 & B1 & B2 & C1 & C2 & D1 & D2).
  assert (P1 : position (PsVesselDynamicData d1) = Some (Some lat1, lon1)) by (cbn [position]; rewrite A1, D1; reflexivity).
  assert (P2 : position (PsVesselDynamicData d2) = Some (Some lat2, lon2)) by (cbn [position]; rewrite A2, D2; reflexivity).
  destruct (c88_positions _ _ _ _ _ _ _ _ _ _ _ _ _ 1 1 61 61 89 89 _ _ _ _ _ _ _ _ ex_position_fragment eq_refl eq_refl
    ex_next_fragment eq_refl eq_refl R1 P1 R2 P2) as [L _].
  destruct (c88_motion _ _ _ _ _ _ _ _ _ _ _ _ _ 1 1 50 50 116 116 128 128 _ _ _ _ ex_position_fragment eq_refl eq_refl
    ex_next_fragment eq_refl eq_refl R1 R2) as (M1 & _ & M3).
  exists d1, d2, lat1, lat2, sog1, sog2, he1, he2. repeat (split; [assumption|]).
  split; [apply (L _ _ eq_refl eq_refl); vm_compute; reflexivity|]. repeat (split; [assumption|]).
  split; [apply (M1 _ _ B1 B2); vm_compute; reflexivity|]. repeat (split; [assumption|]).
  apply (M3 _ _ C1 C2); vm_compute; reflexivity.
Qed.

(** A place just south of the equator and one in the north. *)
Example c88_text_example :
  exists d1 d2 x1 x2,
    fst (parse_sentence true ex_now (lit "$GPGLL,0000.001,S,01131.000,E,123519,A") new_parser) = Ok (PsGll d1) /\
    fst (parse_sentence true ex_now (lit "$GPGGA,123519,4807.038,N,01131.000,E,1,08,0.9,545.4,M,46.9,M,,") new_parser) = Ok (PsGga d2) /\
    gll_latitude d1 = Some x1 /\ gga_latitude d2 = Some x2 /\ real_of x1 <= real_of x2.
Proof.
  assert (H : exists d1 d2 x1 x2,
    fst (parse_sentence true ex_now (lit "$GPGLL,0000.001,S,01131.000,E,123519,A") new_parser) = Ok (PsGll d1) /\
    fst (parse_sentence true ex_now (lit "$GPGGA,123519,4807.038,N,01131.000,E,1,08,0.9,545.4,M,46.9,M,,") new_parser) = Ok (PsGga d2) /\
    gll_latitude d1 = Some x1 /\ gga_latitude d2 = Some x2).
  { do 4 eexists. split; [vm_compute; reflexivity|]. split; [vm_compute; reflexivity|]. split; reflexivity. }
  destruct H as (d1 & d2 & x1 & x2 & R1 & R2 & L1 & L2). exists d1, d2, x1, x2. repeat (split; [assumption|]).
  assert (C : clock ex_now) by (vm_compute; repeat split; intuition discriminate).
  refine (c88_text_positions _ _ _ _ _ (lit "GP") (lit "GP") (lit "GLL") (lit "GGA")
    (map lit ["0000.001"; "S"; "01131.000"; "E"; "123519"; "A"]%string)
    (map lit ["123519"; "4807.038"; "N"; "01131.000"; "E"; "1"; "08"; "0.9"; "545.4"; "M"; "46.9"; "M"; ""; ""]%string)
    _ _ _ _ 2 (lit "S") 0 1 1 2 x1 x2 0 48 (decimal_size 1 (-3)) (decimal_size 7038 (-3))
    (- (IZR (Z.of_N 0) + decimal_size 1 (-3) / 60)) (IZR (Z.of_N 48) + decimal_size 7038 (-3) / 60)
    _ _ C _ _ _ C _ R1 _ R2 _ _ _ _ _ _ _ _).
  - gnss. - cbn [In]; auto. - discriminate. - gnss. - cbn [In]; auto. - discriminate.
  - cbn [coordinates In]. rewrite L1. auto. - cbn [coordinates In]. rewrite L2. auto.
  - apply degrees_minutes_intro with (dd := lit "00") (mm := lit "00") (frac := lit "001") (rest := []); try reflexivity; try discriminate.
    all: repeat constructor; discriminate.
  - unfold decimal_size. simpl. lra.
  - split; [reflexivity|]. intros N. now destruct N.
  - apply degrees_minutes_intro with (dd := lit "48") (mm := lit "07") (frac := lit "038") (rest := []); try reflexivity; try discriminate.
    all: repeat constructor; discriminate.
  - unfold decimal_size. simpl. lra.
  - split; [intros N; discriminate N|reflexivity].
  - unfold decimal_size. simpl. lra.
Qed.

(** A negative and a positive number. *)
Example c88_decimals_example :
  exists d1 d2 x1 x2,
    fst (parse_sentence true ex_now (lit "$GPVTG,-12.5,T") new_parser) = Ok (PsVtg d1) /\
    fst (parse_sentence true ex_now (lit "$GPVTG,0.25,T") new_parser) = Ok (PsVtg d2) /\
    vtg_cog_true d1 = Some x1 /\ vtg_cog_true d2 = Some x2 /\ real_of x1 <= real_of x2.
Proof.
  assert (H : exists d1 d2 x1 x2,
    fst (parse_sentence true ex_now (lit "$GPVTG,-12.5,T") new_parser) = Ok (PsVtg d1) /\
    fst (parse_sentence true ex_now (lit "$GPVTG,0.25,T") new_parser) = Ok (PsVtg d2) /\
    vtg_cog_true d1 = Some x1 /\ vtg_cog_true d2 = Some x2).
  { do 4 eexists. split; [vm_compute; reflexivity|]. split; [vm_compute; reflexivity|]. split; reflexivity. }
  destruct H as (d1 & d2 & x1 & x2 & R1 & R2 & L1 & L2). exists d1, d2, x1, x2. repeat (split; [assumption|]).
  assert (C : clock ex_now) by (vm_compute; repeat split; intuition discriminate). pose proof overflow_large as O.
  refine (c88_decimals _ _ _ _ _ (lit "GP") (lit "GP") (lit "VTG") (lit "VTG") (map lit ["-12.5"; "T"]%string) (map lit ["0.25"; "T"]%string)
    _ _ _ _ 0 0 x1 x2 true false 125 25 (-1) (-2) _ _ C _ _ _ C _ R1 _ R2 _ _ _ _ _ _).
  - gnss. - cbn [In]; auto. - discriminate. - gnss. - cbn [In]; auto. - discriminate.
  - cbn [decimals In]. rewrite L1. auto. - cbn [decimals In]. rewrite L2. auto.
  - apply decimal_intro with (sign := lit "-") (ip := lit "12") (dot := lit ".") (fp := lit "5") (ex := []) (x := 0%Z);
      [reflexivity|right; right; auto|repeat constructor; discriminate|repeat constructor; discriminate|discriminate|now left|constructor|reflexivity|reflexivity].
  - assert (decimal_size 125 (-1) = 12.5) as -> by (unfold decimal_size; simpl; lra). lra.
  - apply decimal_intro with (sign := []) (ip := lit "0") (dot := lit ".") (fp := lit "25") (ex := []) (x := 0%Z);
      [reflexivity|left; auto|repeat constructor; discriminate|repeat constructor; discriminate|discriminate|now left|constructor|reflexivity|reflexivity].
  - assert (decimal_size 25 (-2) = 0.25) as -> by (unfold decimal_size; simpl; lra). lra.
  - unfold decimal_size; simpl; lra.
Qed.
