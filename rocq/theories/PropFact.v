(** C102: the same position, time, speed or course in sentences of different kinds. *)
From Coq Require Import List NArith ZArith Bool String Lia Reals Lra Floats.SpecFloat.
From Flocq Require Import Core.
From Verif Require Import Base Str F64 Chrono Types Util AisMod Vdm Gnss Parser
  SpecText SpecResult SpecAis SpecTime SpecReal SpecMeasure StrFacts FrontFacts CallFacts ResultFacts BitFacts
  VdmFacts LayoutFacts FloatFacts DecimalFacts FieldFacts PropFront PropMeasure SpecFields SpecWriting PropFields PropOrder
  Equality SpecEq SpecSharp SpecFact PropEq PropWriting PropSharp.
Import ListNotations.
Open Scope R_scope.

Local Opaque pick_string pick_u64 pick_i64 f64_div f64_mul f64_of_Z f64_of_dec.

(** The same position in GGA, RMC and GLL sentences gives the same doubles. *)
Theorem c102_positions ovf ovf' now now' s s' tt tt' fff fff' fs gs p p' r r' n minus i i' j j' x y d m :
  gnss_with s tt fff fs -> In fff [lit "GGA"; lit "RMC"; lit "GLL"] -> clock now -> (0 <= dt_year now)%Z ->
  gnss_with s' tt' fff' gs -> In fff' [lit "GGA"; lit "RMC"; lit "GLL"] -> clock now' -> (0 <= dt_year now')%Z ->
  fst (parse_sentence ovf now s p) = Ok r -> In (n, minus, i, j, x) (coordinates r) ->
  fst (parse_sentence ovf' now' s' p') = Ok r' -> In (n, minus, i', j', y) (coordinates r') ->
  degrees_minutes n (fld fs i) d m -> degrees_minutes n (fld gs i') d m ->
  (fld fs j = minus <-> fld gs j' = minus) -> x = y /\ x <> None.
Proof.
  intros Hs Hf Hc Hy Hs' Hf' Hc' Hy' Hr Hi Hr' Hi' D D' Hj.
  assert (G : In fff [lit "GGA"; lit "RMC"; lit "GSA"; lit "GLL"; lit "VTG"]) by (cbn [In] in *; tauto).
  assert (G' : In fff' [lit "GGA"; lit "RMC"; lit "GSA"; lit "GLL"; lit "VTG"]) by (cbn [In] in *; tauto).
  pose proof (gnss_ok ovf now s tt fff fs p r _ Hs (names_system_nav tt) G Hc Hy Hr) as R.
  pose proof (gnss_ok ovf' now' s' tt' fff' gs p' r' _ Hs' (names_system_nav tt') G' Hc' Hy' Hr') as R'.
  apply (report_coordinates _ _ _ _ _ n minus i j x) in R as [Hn V]; [|exact Hi].
  apply (report_coordinates _ _ _ _ _ n minus i' j' y) in R' as [_ V']; [|exact Hi'].
  assert (Hn3 : (n <= 3)%nat) by (destruct Hn as [[-> _]|[-> _]]; lia).
  destruct V as [E|a N (d1 & m1 & q1 & q2 & z & D1 & N1 & N2 & N3 & S & Hm & Hp)]; [now apply degrees_nonempty in D|].
  destruct V' as [E|a' N' (d2 & m2 & q1' & q2' & z' & D2 & N1' & N2' & N3' & S' & Hm' & Hp')]; [now apply degrees_nonempty in D'|].
  destruct (degrees_minutes_unique _ _ _ _ _ _ D1 D) as [-> ->]. destruct (degrees_minutes_unique _ _ _ _ _ _ D2 D') as [-> ->].
  destruct (degrees_minutes_bound _ _ _ _ Hn3 D) as [B1 B2].
  assert (z = z') as <-.
  { apply real_of_inj; try apply N3; try apply N3'; [congruence|].
    now rewrite (angle_steps d m q1 q2 z B1 B2 N1 N2 N3), (angle_steps d m q1' q2' z' B1 B2 N1' N2' N3'). }
  split; [|discriminate]. f_equal. destruct (str_eqb_spec (fld fs j) minus) as [E|E].
  - now rewrite (Hm E), (Hm' (proj1 Hj E)).
  - rewrite (Hp E), Hp'; [reflexivity|]. intros E'. now apply E, Hj.
Qed.
Print Assumptions c102_positions.

(** The same time of day in GGA, GLL and RMC sentences, the last with the date of today. *)
Theorem c102_times ovf ovf' now s s' tt tt' fff fs gs p p' r i o d h mi sec dd mo yy :
  gnss_with s tt fff fs -> In fff [lit "GGA"; lit "GLL"] -> gnss_with s' tt' (lit "RMC") gs ->
  clock now -> (0 <= dt_year now)%Z ->
  fst (parse_sentence ovf now s p) = Ok r -> In (i, o) (times r) ->
  fst (parse_sentence ovf' now s' p') = Ok (PsRmc d) ->
  six_digits (fld fs i) h mi sec -> six_digits (fld gs 0) h mi sec -> six_digits (fld gs 8) dd mo yy ->
  (rmc_timestamp d = o <-> dd = dt_day now /\ mo = dt_month now /\ Z.of_N yy = (dt_year now mod 100)%Z).
Proof.
  intros Hs Hf Hs' Hc Hy Hr Hi Hr' T T' Dt.
  destruct (c55_time_of_day ovf now s tt fff fs p r i o h mi sec Hs Hf Hc Hy Hr Hi T) as [-> _].
  destruct (c56_date_and_time ovf' now s' tt' gs p' d dd mo yy h mi sec Hs' Hy Hr' Dt T') as (year & -> & Y1 & Y2 & _).
  split.
  - intros E. injection E as -> -> ->. now rewrite Y2.
  - intros (-> & -> & E). rewrite E in Y2. do 2 f_equal.
    rewrite (Z.div_mod year 100), (Z.div_mod (dt_year now) 100) by lia. now rewrite Y1, Y2.
Qed.
Print Assumptions c102_times.

(** The same number in two decimal fields, for example the speed in knots of RMC and VTG. *)
Theorem c102_decimals ovf ovf' now now' s s' tt tt' fff fff' fs gs p p' r r' i i' x y neg n e n' e' :
  gnss_with s tt fff fs -> In fff [lit "GGA"; lit "RMC"; lit "GSA"; lit "VTG"] -> clock now -> (0 <= dt_year now)%Z ->
  gnss_with s' tt' fff' gs -> In fff' [lit "GGA"; lit "RMC"; lit "GSA"; lit "VTG"] -> clock now' -> (0 <= dt_year now')%Z ->
  fst (parse_sentence ovf now s p) = Ok r -> In (i, x) (decimals r) ->
  fst (parse_sentence ovf' now' s' p') = Ok r' -> In (i', y) (decimals r') ->
  decimal (fld fs i) neg n e -> decimal (fld gs i') neg n' e' -> decimal_size n e = decimal_size n' e' ->
  x = y /\ x <> None.
Proof.
  intros Hs Hf Hc Hy Hs' Hf' Hc' Hy' Hr Hi Hr' Hi' D D' E.
  assert (G : In fff [lit "GGA"; lit "RMC"; lit "GSA"; lit "GLL"; lit "VTG"]) by (cbn [In] in *; tauto).
  assert (G' : In fff' [lit "GGA"; lit "RMC"; lit "GSA"; lit "GLL"; lit "VTG"]) by (cbn [In] in *; tauto).
  pose proof (gnss_ok ovf now s tt fff fs p r _ Hs (names_system_nav tt) G Hc Hy Hr) as R.
  pose proof (gnss_ok ovf' now' s' tt' fff' gs p' r' _ Hs' (names_system_nav tt') G' Hc' Hy' Hr') as R'.
  apply (report_decimals _ _ _ _ _ _ _ R) in Hi. apply (report_decimals _ _ _ _ _ _ _ R') in Hi'.
  assert (W : same_contents Decimal (fld fs i) (fld gs i')) by (apply (SpecWriting.same_number _ _ neg n e n' e'); auto).
  assert (X : exists v, reads_double (fld fs i) v).
  { destruct (Rlt_or_le (decimal_size n e) double_overflow) as [L|L].
    - destruct (f64_of_dec_nearest neg n e L) as [N1 N2]. exists (f64_of_dec neg n e). eapply reads_decimal; eauto.
    - exists (S754_infinity neg). eapply reads_overflow; eauto. }
  destruct X as (v & X). pose proof (reads_same _ _ _ W X) as Y.
  assert (U : forall f o, f <> [] -> reads_double f v -> lenient_value reads_double f o -> o = Some v).
  { clear. intros f o Nf X [[E|E]|w _ Z]; [contradiction|now destruct (E v)|]. apply parse_f64_reads in X, Z. congruence. }
  assert (N1 : fld fs i <> []) by (apply (stands_nonempty _ (if neg then - decimal_size n e else decimal_size n e)); exists neg, n, e; auto).
  assert (N2 : fld gs i' <> []) by (apply (stands_nonempty _ (if neg then - decimal_size n' e' else decimal_size n' e')); exists neg, n', e'; auto).
  rewrite (U _ _ N1 X Hi), (U _ _ N2 Y Hi'). split; [reflexivity|discriminate].
Qed.
Print Assumptions c102_decimals.

(** The same position in AIS messages of different types. *)
Theorem c102_ais_positions ovf ovf' now now' s s' p p' tt tt' fff fff' bits bits' t t' lo lo' la la' r r' q q' lat lat' lon lon' :
  one_fragment s tt fff (armor bits) -> message_type bits t -> position_bits t = Some (lo, la) ->
  one_fragment s' tt' fff' (armor bits') -> message_type bits' t' -> position_bits t' = Some (lo', la') ->
  parse_sentence ovf now s p = (Ok r, q) -> position r = Some (lat, lon) ->
  parse_sentence ovf' now' s' p' = (Ok r', q') -> position r' = Some (lat', lon') ->
  (lat = lat' <-> signed_value (window bits la 27) = signed_value (window bits' la' 27)) /\
  (lon = lon' <-> signed_value (window bits lo 28) = signed_value (window bits' lo' 28)).
Proof.
  intros S T B S' T' B' R P R' P'.
  assert (I : forall na a b, (Z.abs a <= 2 ^ 27)%Z -> (Z.abs b <= 2 ^ 27)%Z -> (degrees na a = degrees na b <-> a = b)).
  { clear. intros na a b A B. split; [|now intros ->]. intros E.
    assert (A' : (Z.abs a <= 2 ^ 53)%Z) by (eapply Z.le_trans; [exact A|now apply Z.pow_le_mono_r]).
    assert (B' : (Z.abs b <= 2 ^ 53)%Z) by (eapply Z.le_trans; [exact B|now apply Z.pow_le_mono_r]).
    apply (coordinate_injective na a b (degrees na a) A B); [now apply degrees_nearest|rewrite E; now apply degrees_nearest]. }
  assert (H27 : forall bv k, (Z.abs (signed_value (window bv k 27)) <= 2 ^ 27)%Z).
  { clear. intros bv k. eapply Z.le_trans; [apply (signed_abs bv k 26); lia|]. apply Z.pow_le_mono_r; lia. }
  assert (H28 : forall bv k, (Z.abs (signed_value (window bv k 28)) <= 2 ^ 27)%Z).
  { clear. intros bv k. apply (signed_abs bv k 27); lia. }
  pose proof (position_of_report _ _ _ _ _ _ _ _ _ _ _ _ S T B R) as Q.
  pose proof (position_of_report _ _ _ _ _ _ _ _ _ _ _ _ S' T' B' R') as Q'.
  assert (E1 : lat = degrees latitude_na (signed_value (window bits la 27))) by congruence.
  assert (E2 : lon = degrees longitude_na (signed_value (window bits lo 28))) by congruence.
  assert (E3 : lat' = degrees latitude_na (signed_value (window bits' la' 27))) by congruence.
  assert (E4 : lon' = degrees longitude_na (signed_value (window bits' lo' 28))) by congruence.
  rewrite E1, E2, E3, E4. split; [exact (I _ _ _ (H27 bits la) (H27 bits' la'))|exact (I _ _ _ (H28 bits lo) (H28 bits' lo'))].
Qed.
Print Assumptions c102_ais_positions.

(** *** AIS and GNSS *)

Lemma ais_coordinate_error na raw x : (Z.abs raw <= 2 ^ 27)%Z -> coordinate na raw (Some x) ->
  finite x /\ Rabs (real_of x - IZR raw / 600000) <= / 10 ^ 13.
Proof.
  intros A [[_ E]|(_ & y & E & N)]; [discriminate|]. injection E as <-. split; [apply N|].
  destruct (nearest_value 8 _ _ N ltac:(lia)) as [_ H].
  - unfold Rdiv. rewrite Rabs_mult, <- abs_IZR. apply IZR_le in A. rewrite (Rabs_pos_eq (/ 600000)) by lra.
    change (bpow radix2 8) with 256. change (2 ^ 27)%Z with 134217728%Z in A. lra.
  - eapply Rle_trans; [exact H|]. change (bpow radix2 (8 - 53)) with (/ 35184372088832). lra.
Qed.

Lemma ais_coordinate ovf now s p tt fff bits t r q n minus raw x :
  one_fragment s tt fff (armor bits) -> message_type bits t -> parse_sentence ovf now s p = (Ok r, q) ->
  In (n, minus, raw, Some x) (ais_coordinates bits t r) -> finite x /\ Rabs (real_of x - IZR raw / 600000) <= / 10 ^ 13.
Proof.
  intros S T R I. unfold ais_coordinates in I. destruct (position_bits t) as [[lo la]|] eqn:B; [|destruct I].
  destruct (c32_nearest_coordinates _ _ _ _ _ _ _ _ _ _ _ _ S T B R) as (lat & lon & E & C & D). rewrite E in I. cbn [In] in I.
  destruct I as [I|[I|[]]]; injection I as <- <- <- ->.
  - apply (ais_coordinate_error latitude_na); [|exact C]. eapply Z.le_trans; [apply (signed_abs bits la 26); lia|apply Z.pow_le_mono_r; lia].
  - apply (ais_coordinate_error longitude_na); [|exact D]. apply (signed_abs bits lo 27); lia.
Qed.

(** A position reported by AIS and written in a GNSS sentence: the doubles differ by less than 2e-12 degrees if
    the positions are the same (a fifth of a micrometre), and otherwise are ordered as the positions are. *)
Theorem c102_ais_gnss_partial ovf ovf' now now' s s' tt tt' fff fff' bits t fs p p' r r' q n minus i j raw x y v :
  one_fragment s tt fff (armor bits) -> message_type bits t -> parse_sentence ovf now s p = (Ok r, q) ->
  In (n, minus, raw, Some x) (ais_coordinates bits t r) ->
  gnss_with s' tt' fff' fs -> In fff' [lit "GGA"; lit "RMC"; lit "GLL"] -> clock now' -> (0 <= dt_year now')%Z ->
  fst (parse_sentence ovf' now' s' p') = Ok r' -> In (n, minus, i, j, Some y) (coordinates r') ->
  angle_written n minus (fld fs j) (fld fs i) v ->
  (v = IZR raw / 600000 -> Rabs (real_of x - real_of y) < 2 * / 10 ^ 12) /\
  (nine_decimals n (fld fs i) -> v < IZR raw / 600000 -> real_of y < real_of x) /\
  (nine_decimals n (fld fs i) -> IZR raw / 600000 < v -> real_of x < real_of y).
Proof.
  intros S T R I S' F C Y R' I' W.
  destruct (ais_coordinate _ _ _ _ _ _ _ _ _ _ _ _ _ _ S T R I) as [_ E].
  pose proof (c44_text_coordinates _ _ _ _ _ _ _ _ _ _ _ _ _ S' F C Y R' I') as (d & m & D & _ & _ & Hm & Hp).
  assert (E' : Rabs (real_of y - v) <= / 10 ^ 12).
  { destruct W as (d' & m' & D' & W1 & W2). destruct (degrees_minutes_unique _ _ _ _ _ _ D D') as [<- <-].
    destruct (str_eqb_spec (fld fs j) minus) as [Ej|Ej].
    - destruct (Hm Ej) as [_ H]. rewrite (W1 Ej). now replace (real_of y - - (IZR (Z.of_N d) + m / 60)) with (real_of y + (IZR (Z.of_N d) + m / 60)) by lra.
    - destruct (Hp Ej) as [_ H]. now rewrite (W2 Ej). }
  assert (G : nine_decimals n (fld fs i) -> exists k, v = IZR k / 60000000000).
  { intros (d' & m' & k & D' & _ & K). destruct (degrees_minutes_unique _ _ _ _ _ _ D D') as [<- <-].
    destruct W as (d' & m' & D'' & W1 & W2). destruct (degrees_minutes_unique _ _ _ _ _ _ D D'') as [<- <-].
    assert (Q : IZR (Z.of_N d) + m / 60 = IZR (Z.of_N d * 60000000000 + Z.of_N k) / 60000000000).
    { rewrite plus_IZR, mult_IZR, <- K. field. }
    destruct (str_eqb_spec (fld fs j) minus) as [Ej|Ej].
    - exists (- (Z.of_N d * 60000000000 + Z.of_N k))%Z. rewrite (W1 Ej), Q, opp_IZR. lra.
    - exists (Z.of_N d * 60000000000 + Z.of_N k)%Z. rewrite (W2 Ej). exact Q. }
  assert (Gap : forall k, IZR k / 60000000000 < IZR raw / 600000 -> IZR k / 60000000000 + / 60000000000 <= IZR raw / 600000).
  { intros k H. assert (H2 : (k < raw * 100000)%Z) by (apply lt_IZR; rewrite mult_IZR; lra).
    assert (H3 : (k + 1 <= raw * 100000)%Z) by lia. apply IZR_le in H3. rewrite plus_IZR, mult_IZR in H3. lra. }
  assert (Gap' : forall k, IZR raw / 600000 < IZR k / 60000000000 -> IZR raw / 600000 + / 60000000000 <= IZR k / 60000000000).
  { intros k H. assert (H2 : (raw * 100000 < k)%Z) by (apply lt_IZR; rewrite mult_IZR; lra).
    assert (H3 : (raw * 100000 + 1 <= k)%Z) by lia. apply IZR_le in H3. rewrite plus_IZR, mult_IZR in H3. lra. }
  replace (/ 10 ^ 13) with (/ 10000000000000) in E by (f_equal; lra). replace (/ 10 ^ 12) with (/ 1000000000000) in * by (f_equal; lra).
  apply Rabs_le_inv in E, E'. split; [|split].
  - intros ->. apply Rabs_def1; lra.
  - intros N L. destruct (G N) as (k & ->). apply Gap in L. lra.
  - intros N L. destruct (G N) as (k & ->). apply Gap' in L. lra.
Qed.
Print Assumptions c102_ais_gnss_partial.

Definition ex_fact : str := lit "!AIVDM,1,1,,A,15RTgt0P@3o;90TKOPr@0ng208CQ,0*5A".
Definition ex_fact_bits : list bool := layout_bits
  [U 6 1; U 2 0; U 30 371798000; U 4 0; I 8 (-127); U 10 3; F true; I 28 (-74037230); I 27 28827881;
   U 12 3; U 9 215; U 6 33; U 2 0; U 3 0; F false; U 19 34017].
Lemma ex_fact_fragment : one_fragment ex_fact (lit "AI") (lit "VDM") (armor ex_fact_bits).
Proof. apply (check_one_fragment _ _ _ (lit "A") _ [lit "0"]). apply check_vdm; [|reflexivity]. vm_compute. auto. Qed.

(** They are not always equal: 48 degrees 2.7881 minutes north. *)
Theorem c102_ais_gnss_refuted : exists s bits s' fs r r' v x y,
  one_fragment s (lit "AI") (lit "VDM") (armor bits) /\ message_type bits 1 /\
  gnss_with s' (lit "GP") (lit "GLL") fs /\
  (forall ovf p, parse_sentence ovf ex_now s p = (Ok r, p) /\ parse_sentence ovf ex_now s' p = (Ok r', p)) /\
  In (2%nat, lit "S", signed_value (window bits 89 27), Some x) (ais_coordinates bits 1 r) /\
  In (2%nat, lit "S", 0%nat, 1%nat, Some y) (coordinates r') /\
  angle_written 2 (lit "S") (fld fs 1) (fld fs 0) v /\ v = IZR (signed_value (window bits 89 27)) / 600000 /\
  real_of x <> real_of y.
Proof.
  exists ex_fact, ex_fact_bits, (lit "$GPGLL,4802.7881,N,00000.0,E,123519,A,A"),
    (map lit ["4802.7881"; "N"; "00000.0"; "E"; "123519"; "A"; "A"]%string).
  do 5 eexists. split; [exact ex_fact_fragment|]. split; [reflexivity|]. split; [gnss|].
  split; [intros ovf p; split; vm_compute; reflexivity|].
  split; [left; vm_compute; reflexivity|]. split; [left; reflexivity|]. split; [|split].
  - exists 48%N, (decimal_size 27881 (-4)). split.
    + apply (degrees_minutes_intro _ _ _ _ (lit "48") (lit "02") (lit "7881") []); try reflexivity; try (now apply all_digits); discriminate.
    + unfold written_angle. split; [discriminate|intros _; reflexivity].
  - replace (signed_value (window ex_fact_bits 89 27)) with 28827881%Z by reflexivity. unfold decimal_size. simpl. lra.
  - intros E. apply real_same_number in E; [|exact Logic.I|exact Logic.I|vm_compute; auto..]; try (vm_compute; intuition discriminate).
    apply f64_eqb_iff in E. vm_compute in E. discriminate E.
Qed.
Print Assumptions c102_ais_gnss_refuted.

(** *** Speed and course *)

Lemma ais_motion_tenths ovf now s p tt fff bits t r q na raw o :
  one_fragment s tt fff (armor bits) -> message_type bits t -> parse_sentence ovf now s p = (Ok r, q) ->
  In (na, raw, o) (ais_motion bits t r) -> o = tenths na raw /\ fits 12 raw.
Proof.
  intros S T R I. unfold ais_motion in I. destruct (motion_bits t) as [[[so co] he]|] eqn:B; [|destruct I].
  destruct (motion_of_report _ _ _ _ _ _ _ _ _ _ _ _ _ S T B R) as (d & -> & E1 & E2 & _). cbn [In] in I.
  pose proof (unsigned_range bits so 10) as U. pose proof (unsigned_range bits co 12) as V. unfold fits in *.
  change (2 ^ N.of_nat 10)%N with 1024%N in U. change (2 ^ N.of_nat 12)%N with 4096%N in V. change (2 ^ 12)%N with 4096%N.
  destruct I as [I|[I|[]]]; apply pair_equal_spec in I as [I <-]; apply pair_equal_spec in I as [<- <-]; split; auto; lia.
Qed.

Local Transparent f64_mul f64_of_Z f64_of_dec.
(** The numbers of tenths whose product with the double 0.1 is not the double nearest to the quotient by ten. *)
Definition off_by_one : list N :=
  filter (fun k => negb (f64_eqb (f64_mul (f64_of_Z (Z.of_N k)) (f64_of_dec false 1 (-1))) (f64_of_dec false k (-1))))
    (map N.of_nat (seq 0 (N.to_nat 4096))).
Local Opaque f64_mul f64_of_Z f64_of_dec.

Lemma off_by_one_in k : (k < 4096)%N ->
  (In k off_by_one <-> f64_eqb (f64_mul (f64_of_Z (Z.of_N k)) (f64_of_dec false 1 (-1))) (f64_of_dec false k (-1)) = false).
Proof.
  intros L. unfold off_by_one. rewrite filter_In, negb_true_iff. split; [tauto|]. intros E. split; [|exact E].
  apply in_map_iff. exists (N.to_nat k). split; [apply N2Nat.id|]. apply in_seq. lia.
Qed.

Lemma tenths_double na raw x : fits 12 raw -> tenths na raw = Some x ->
  finite x /\ proper x /\ x = f64_mul (f64_of_Z (Z.of_N raw)) (f64_of_dec false 1 (-1)) /\
  Rabs (real_of x - IZR (Z.of_N raw) / 10) <= / 10 ^ 12.
Proof.
  intros H E. pose proof (tenths_spec na raw H) as S. rewrite E in S.
  destruct S as [[_ S]|(_ & x' & S & F & _ & A)]; [discriminate|]. injection S as <-.
  unfold tenths in E. destruct (N.eqb raw na); [discriminate|]. injection E as E. split; [exact F|]. split; [|split; [congruence|exact A]].
  destruct (f64_of_Z_exact (Z.of_N raw)) as (_ & Fr & Pr & _); [unfold fits in H; change (2 ^ 12)%N with 4096%N in H; lia|].
  destruct tenth_value as (Ft & Pt & _). rewrite <- E. now destruct (f64_mul_rounds _ _ Fr Ft Pr Pt) as (P & _).
Qed.

(** A speed or course reported by AIS and written in an RMC or VTG sentence (any decimal field): the doubles are
    within 2e-12 of each other. They are equal except for certain numbers of tenths. Of the 1023 speeds 361 are
    such, of the 3600 courses 1239. *)
Theorem c102_motion_partial : exists L : list N,
  NoDup L /\ List.length (filter (fun k => (k <? 1023)%N) L) = 361%nat /\
  List.length (filter (fun k => (k <? 3600)%N) L) = 1239%nat /\
  forall ovf ovf' now now' s s' tt tt' fff fff' bits t fs p p' r r' q na raw x i y n e,
  one_fragment s tt fff (armor bits) -> message_type bits t -> parse_sentence ovf now s p = (Ok r, q) ->
  In (na, raw, Some x) (ais_motion bits t r) ->
  gnss_with s' tt' fff' fs -> In fff' [lit "GGA"; lit "RMC"; lit "GSA"; lit "VTG"] -> clock now' -> (0 <= dt_year now')%Z ->
  fst (parse_sentence ovf' now' s' p') = Ok r' -> In (i, Some y) (decimals r') ->
  decimal (fld fs i) false n e -> decimal_size n e = IZR (Z.of_N raw) / 10 ->
  Rabs (real_of x - real_of y) < 2 * / 10 ^ 12 /\ (real_of x = real_of y <-> ~ In raw L).
Proof.
  exists off_by_one. split.
  { apply NoDup_filter, FinFun.Injective_map_NoDup; [exact Nat2N.inj|apply seq_NoDup]. }
  split; [vm_compute; reflexivity|]. split; [vm_compute; reflexivity|].
  intros ovf ovf' now now' s s' tt tt' fff fff' bits t fs p p' r r' q na raw x i y n e S T R I S' F C Y R' I' D E.
  destruct (ais_motion_tenths _ _ _ _ _ _ _ _ _ _ _ _ _ S T R I) as [X Fr]. symmetry in X.
  destruct (tenths_double _ _ _ Fr X) as (Fx & Px & Ex & Ax). unfold fits in Fr. change (2 ^ 12)%N with 4096%N in Fr.
  set (w := IZR (Z.of_N raw)) in *. assert (W : 0 <= w <= 4095) by (unfold w; split; apply IZR_le; lia).
  assert (V : Rabs (w / 10) <= bpow radix2 9) by (rewrite Rabs_pos_eq by lra; change (bpow radix2 9) with 512; lra).
  assert (O : w / 10 < double_overflow).
  { pose proof overflow_large as L. replace (2 ^ 20) with 1048576 in L by lra. lra. }
  destruct (c47_nearest_double _ _ _ _ _ _ _ _ _ _ _ _ _ S' F C Y R' I' D ltac:(rewrite E; exact O)) as (y' & Ey & Fy & Sy & Ny).
  injection Ey as <-. rewrite E in Ny.
  assert (Dr : decimal_size raw (-1) = w / 10).
  { unfold decimal_size. change (powerRZ 10 (-1)) with (/ (10 * 1)). fold w. lra. }
  destruct (f64_of_dec_nearest false raw (-1) ltac:(rewrite Dr; exact O)) as [Nd Sd]. cbn [signed] in Nd. rewrite Dr in Nd.
  assert (Yd : y = f64_of_dec false raw (-1)).
  { apply (nearest_unique (w / 10)); auto; [|congruence]. apply (rnd_in_range 9); [lia|exact V]. }
  destruct (nearest_value 9 _ _ Ny ltac:(lia) V) as [_ Ay]. change (bpow radix2 (9 - 53)) with (/ 17592186044416) in Ay.
  split.
  - replace (/ 10 ^ 12) with (/ 1000000000000) in * by (f_equal; lra). apply Rabs_le_inv in Ax, Ay. apply Rabs_def1; lra.
  - rewrite off_by_one_in by exact Fr. rewrite <- Ex, <- Yd. split.
    + intros Q B. apply (real_same_number x y Fx Fy Px) in Q; [|apply Ny]. apply f64_eqb_iff in Q. congruence.
    + intros B. apply same_number_real, f64_eqb_iff. now destruct (f64_eqb x y).
Qed.
Print Assumptions c102_motion_partial.

Theorem c102_motion_refuted : exists s bits s' fs d d',
  one_fragment s (lit "AI") (lit "VDM") (armor bits) /\ message_type bits 1 /\ gnss_with s' (lit "GP") (lit "RMC") fs /\
  (forall ovf p, parse_sentence ovf ex_now s p = (Ok (PsVesselDynamicData d), p) /\
    parse_sentence ovf ex_now s' p = (Ok (PsRmc d'), p)) /\
  be_value (window bits 50 10) = 3%N /\ be_value (window bits 116 12) = 3%N /\ fld fs 6 = lit "0.3" /\ fld fs 7 = lit "0.3" /\
  vdd_sog_knots d <> rmc_sog_knots d' /\ vdd_cog d <> rmc_bearing d'.
Proof.
  exists ex_fact, ex_fact_bits, (lit "$GPRMC,123519,A,4802.7881,N,00000.0,E,0.3,0.3,230394,,"),
    (map lit ["123519"; "A"; "4802.7881"; "N"; "00000.0"; "E"; "0.3"; "0.3"; "230394"; ""; ""]%string).
  do 2 eexists. split; [exact ex_fact_fragment|]. split; [reflexivity|]. split; [gnss|].
  split; [intros ovf p; split; vm_compute; reflexivity|]. do 4 (split; [reflexivity|]).
  split; vm_compute; discriminate.
Qed.
Print Assumptions c102_motion_refuted.

(** *** Examples *)

Definition ex_gga_fact := lit "$GPGGA,150926,4802.7881,N,12323.723,W,1,08,0.3,545.4,M,46.9,M,,".
Definition ex_gga_fact_fields := map lit ["150926"; "4802.7881"; "N"; "12323.723"; "W"; "1"; "08"; "0.3"; "545.4"; "M"; "46.9"; "M"; ""; ""]%string.
Definition ex_rmc_fact := lit "$GNRMC,150926.5,A,4802.78810,N,12323.7230,W,0.30,,140321,,".
Definition ex_rmc_fact_fields := map lit ["150926.5"; "A"; "4802.78810"; "N"; "12323.7230"; "W"; "0.30"; ""; "140321"; ""; ""]%string.

Lemma ex_decimal : decimal (lit "0.3") false 3 (-1).
Proof.
  apply (decimal_intro _ _ _ _ [] (lit "0") (lit ".") (lit "3") [] 0%Z);
    [reflexivity|now left|now apply all_digits|now apply all_digits|discriminate|now left|constructor|reflexivity|reflexivity].
Qed.
Lemma ex_decimal_long : decimal (lit "0.30") false 30 (-2).
Proof.
  apply (decimal_intro _ _ _ _ [] (lit "0") (lit ".") (lit "30") [] 0%Z);
    [reflexivity|now left|now apply all_digits|now apply all_digits|discriminate|now left|constructor|reflexivity|reflexivity].
Qed.

(** Not for equations of real numbers. *)
Local Ltac light := lazymatch goal with |- @eq R _ _ => idtac | _ => first [reflexivity|now apply all_digits|discriminate] end.

Example c102_example :
  exists g m, parse_sentence true ex_now ex_gga_fact new_parser = (Ok (PsGga g), new_parser) /\
    parse_sentence true ex_now ex_rmc_fact new_parser = (Ok (PsRmc m), new_parser) /\
    gga_latitude g = rmc_latitude m /\ gga_longitude g = rmc_longitude m /\ gga_timestamp g = rmc_timestamp m /\
    gga_hdop g = rmc_sog_knots m /\ gga_latitude g <> None.
Proof.
  do 2 eexists. split; [vm_compute; reflexivity|]. split; [vm_compute; reflexivity|].
  assert (G1 : gnss_with ex_gga_fact (lit "GP") (lit "GGA") ex_gga_fact_fields) by gnss.
  assert (G2 : gnss_with ex_rmc_fact (lit "GN") (lit "RMC") ex_rmc_fact_fields) by gnss.
  assert (Y : (0 <= dt_year ex_now)%Z) by discriminate.
  assert (C : clock ex_now) by (vm_compute; repeat split; intuition discriminate).
  assert (K1 : In (lit "GGA") [lit "GGA"; lit "RMC"; lit "GLL"]) by (now left).
  assert (K2 : In (lit "RMC") [lit "GGA"; lit "RMC"; lit "GLL"]) by (now right; left).
  match goal with |- gga_latitude ?g = rmc_latitude ?m /\ _ =>
    assert (R1 : fst (parse_sentence true ex_now ex_gga_fact new_parser) = Ok (PsGga g)) by (vm_compute; reflexivity);
    assert (R2 : fst (parse_sentence true ex_now ex_rmc_fact new_parser) = Ok (PsRmc m)) by (vm_compute; reflexivity);
    set (a := g) in *; set (b := m) in *
  end.
  assert (L1 : degrees_minutes 2 (lit "4802.7881") 48 (decimal_size 27881 (-4))).
  { apply (degrees_minutes_intro _ _ _ _ (lit "48") (lit "02") (lit "7881") []); try reflexivity; try (now apply all_digits); discriminate. }
  assert (L2 : degrees_minutes 2 (lit "4802.78810") 48 (decimal_size 27881 (-4))).
  { apply (degrees_minutes_intro _ _ _ _ (lit "48") (lit "02") (lit "78810") []); light.
    match goal with |- _ = decimal_size ?n ?e => replace n with 278810%N by (vm_compute; reflexivity); replace e with (-5)%Z by reflexivity end.
    unfold decimal_size. simpl. lra. }
  assert (L3 : degrees_minutes 3 (lit "12323.723") 123 (decimal_size 23723 (-3))).
  { apply (degrees_minutes_intro _ _ _ _ (lit "123") (lit "23") (lit "723") []); try reflexivity; try (now apply all_digits); discriminate. }
  assert (L4 : degrees_minutes 3 (lit "12323.7230") 123 (decimal_size 23723 (-3))).
  { apply (degrees_minutes_intro _ _ _ _ (lit "123") (lit "23") (lit "7230") []); light.
    match goal with |- _ = decimal_size ?n ?e => replace n with 237230%N by (vm_compute; reflexivity); replace e with (-4)%Z by reflexivity end.
    unfold decimal_size. simpl. lra. }
  destruct (c102_positions _ _ _ _ _ _ _ _ _ _ _ _ _ _ _ _ 2 (lit "S") 1 2 2 3 (gga_latitude a) (rmc_latitude b) _ _
    G1 K1 C Y G2 K2 C Y R1 ltac:(now left) R2 ltac:(now left) L1 L2 ltac:(now split)) as [E1 E2].
  destruct (c102_positions _ _ _ _ _ _ _ _ _ _ _ _ _ _ _ _ 3 (lit "W") 3 4 4 5 (gga_longitude a) (rmc_longitude b) _ _
    G1 K1 C Y G2 K2 C Y R1 ltac:(now right; left) R2 ltac:(now right; left) L3 L4 ltac:(now split)) as [E3 _].
  split; [exact E1|]. split; [exact E3|]. split.
  { symmetry. apply (c102_times _ _ _ _ _ _ _ _ _ _ _ _ _ 0 (gga_timestamp a) b 15 9 26 14 3 21 G1 ltac:(now left) G2 C Y R1 ltac:(now left) R2).
    - do 7 eexists. split; [reflexivity|]. split; [now apply all_digits|]. vm_compute. auto.
    - do 7 eexists. split; [reflexivity|]. split; [now apply all_digits|]. vm_compute. auto.
    - do 7 eexists. split; [reflexivity|]. split; [now apply all_digits|]. vm_compute. auto.
    - vm_compute. auto. }
  split; [|exact E2].
  apply (c102_decimals _ _ _ _ _ _ _ _ _ _ _ _ _ _ _ _ 7 6 (gga_hdop a) (rmc_sog_knots b) false 3 (-1) 30 (-2)
    G1 ltac:(now left) C Y G2 ltac:(now right; left) C Y R1 ltac:(now left) R2 ltac:(now left)).
  - exact ex_decimal.
  - exact ex_decimal_long.
  - unfold decimal_size. simpl. lra.
Qed.

(** The AIS report of the same position: its speed 0.3 is one of the exceptions; the latitudes are within 2e-12. *)
Example c102_ais_example : exists a x y z,
  parse_sentence true ex_now ex_fact new_parser = (Ok (PsVesselDynamicData a), new_parser) /\
  vdd_latitude a = Some x /\ vdd_sog_knots a = Some z /\
  (exists m, parse_sentence true ex_now ex_rmc_fact new_parser = (Ok (PsRmc m), new_parser) /\ rmc_latitude m = Some y /\
     exists w, rmc_sog_knots m = Some w /\ real_of z <> real_of w /\ Rabs (real_of z - real_of w) < 2 * / 10 ^ 12) /\
  real_of x <> real_of y /\ Rabs (real_of x - real_of y) < 2 * / 10 ^ 12.
Proof.
  do 4 eexists. split; [vm_compute; reflexivity|]. split; [reflexivity|]. split; [reflexivity|].
  assert (G2 : gnss_with ex_rmc_fact (lit "GN") (lit "RMC") ex_rmc_fact_fields) by gnss.
  assert (Y : (0 <= dt_year ex_now)%Z) by discriminate.
  assert (C : clock ex_now) by (vm_compute; repeat split; intuition discriminate).
  split; [eexists; split; [vm_compute; reflexivity|]; split; [reflexivity|]; eexists; split; [reflexivity|]; split|split].
  - intros E. apply real_same_number in E; [|exact Logic.I|exact Logic.I|vm_compute; auto..]; try (vm_compute; intuition discriminate).
    apply f64_eqb_iff in E. vm_compute in E. discriminate E.
  - destruct c102_motion_partial as (L & _ & _ & _ & H).
    eapply (H true true ex_now ex_now ex_fact ex_rmc_fact _ _ _ _ ex_fact_bits 1%N _ new_parser new_parser _ _ _ 1023%N 3%N _ 6%nat _ 30%N (-2)%Z
      ex_fact_fragment eq_refl ltac:(vm_compute; reflexivity) ltac:(left; vm_compute; reflexivity)
      G2 ltac:(now right; left) C Y ltac:(vm_compute; reflexivity) ltac:(now left)).
    + exact ex_decimal_long.
    + unfold decimal_size. simpl. lra.
  - intros E. apply real_same_number in E; [|exact Logic.I|exact Logic.I|vm_compute; auto..]; try (vm_compute; intuition discriminate).
    apply f64_eqb_iff in E. vm_compute in E. discriminate E.
  - eapply (c102_ais_gnss_partial true true ex_now ex_now ex_fact ex_rmc_fact _ _ _ _ ex_fact_bits 1%N _ new_parser new_parser _ _ _ 2%nat (lit "S") 2%nat 3%nat 28827881%Z _ _ _
      ex_fact_fragment eq_refl ltac:(vm_compute; reflexivity) ltac:(left; vm_compute; reflexivity)
      G2 ltac:(now right; left) C Y ltac:(vm_compute; reflexivity) ltac:(now left)).
    + exists 48%N, (decimal_size 27881 (-4)). split.
      * apply (degrees_minutes_intro _ _ _ _ (lit "48") (lit "02") (lit "78810") []); light.
        match goal with |- _ = decimal_size ?n ?e => replace n with 278810%N by (vm_compute; reflexivity); replace e with (-5)%Z by reflexivity end.
        unfold decimal_size. simpl. lra.
      * split; [discriminate|intros _; reflexivity].
    + unfold decimal_size. simpl. lra.
Qed.
