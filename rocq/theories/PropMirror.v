(** C110: north and south, east and west, port and starboard are mirror images. *)
From Coq Require Import List NArith ZArith Bool String Lia Reals Floats.SpecFloat.
From Flocq Require Import Core.
From Verif Require Import Base Str F64 Chrono Types Util Gnss Parser SpecState
  SpecText SpecResult SpecTime SpecReal SpecFields SpecAis SpecWait SpecComplete SpecWriting SpecColumns SpecMirror StrFacts FrontFacts CallFacts
  FloatFacts DecimalFacts FieldFacts PropFront PropFields PropWriting PropSharp ResultFacts PropColumns PropMeasure PropLocal.
Import ListNotations.
Open Scope N_scope.

Lemma some_inj {A} (a b : A) : Some a = Some b -> a = b.
Proof. now intros [=]. Qed.
Lemma neg_neg x : f64_neg (f64_neg x) = x.
Proof. destruct x as [[]|[]| |[]]; reflexivity. Qed.

Lemma angle_other n minus plus f x : plus <> minus -> angle n minus plus f x -> angle n minus minus f (f64_neg x).
Proof.
  intros D (d & m & a & b & y & H1 & H2 & H3 & H4 & H5 & _ & E). rewrite (E D).
  exists d, m, a, b, y. do 5 (split; [assumption|]). split; [reflexivity|]. intros X. now destruct X.
Qed.
Lemma angle_other' n minus plus f x : plus <> minus -> angle n minus minus f x -> angle n minus plus f (f64_neg x).
Proof.
  intros D (d & m & a & b & y & H1 & H2 & H3 & H4 & H5 & E & _). rewrite (E eq_refl), neg_neg.
  exists d, m, a, b, y. do 5 (split; [assumption|]). split; [intros X; now destruct D|reflexivity].
Qed.
Lemma latitude_other f x : (latitude_text (lit "N") f x -> latitude_text (lit "S") f (f64_neg x)) /\
  (latitude_text (lit "S") f x -> latitude_text (lit "N") f (f64_neg x)).
Proof. split; [apply angle_other|apply angle_other']; discriminate. Qed.
Lemma longitude_other f x : (longitude_text (lit "E") f x -> longitude_text (lit "W") f (f64_neg x)) /\
  (longitude_text (lit "W") f x -> longitude_text (lit "E") f (f64_neg x)).
Proof. split; [apply angle_other|apply angle_other']; discriminate. Qed.
Lemma variation_other f x : (variation (lit "E") f x -> variation (lit "W") f (f64_neg x)) /\
  (variation (lit "W") f x -> variation (lit "E") f (f64_neg x)).
Proof.
  split; intros (y & H & [[E ->]|[E ->]]); try discriminate E; exists y; (split; [exact H|]); [right|left]; split; auto.
  apply neg_neg.
Qed.
Lemma field_other (m m' : str -> f64 -> Prop) f v : (forall x, m f x -> m' f (f64_neg x)) ->
  field_value m f v -> field_value m' f (option_map f64_neg v).
Proof. intros H [E|x N X]; constructor; auto. Qed.

Definition turn_gga k (d : GgaData) : GgaData :=
  {| gga_source := gga_source d; gga_timestamp := gga_timestamp d;
     gga_latitude := if Nat.eqb k 2 then option_map f64_neg (gga_latitude d) else gga_latitude d;
     gga_longitude := if Nat.eqb k 4 then option_map f64_neg (gga_longitude d) else gga_longitude d;
     gga_quality := gga_quality d; gga_satellite_count := gga_satellite_count d; gga_hdop := gga_hdop d;
     gga_altitude := gga_altitude d; gga_geoid_separation := gga_geoid_separation d;
     gga_age_of_dgps := gga_age_of_dgps d; gga_ref_station_id := gga_ref_station_id d |}.
Definition turn_rmc k (d : RmcData) : RmcData :=
  {| rmc_source := rmc_source d; rmc_timestamp := rmc_timestamp d; rmc_status_active := rmc_status_active d;
     rmc_latitude := if Nat.eqb k 3 then option_map f64_neg (rmc_latitude d) else rmc_latitude d;
     rmc_longitude := if Nat.eqb k 5 then option_map f64_neg (rmc_longitude d) else rmc_longitude d;
     rmc_sog_knots := rmc_sog_knots d; rmc_bearing := rmc_bearing d;
     rmc_variation := if Nat.eqb k 10 then option_map f64_neg (rmc_variation d) else rmc_variation d |}.
Definition turn_gll k (d : GllData) : GllData :=
  {| gll_source := gll_source d;
     gll_latitude := if Nat.eqb k 1 then option_map f64_neg (gll_latitude d) else gll_latitude d;
     gll_longitude := if Nat.eqb k 3 then option_map f64_neg (gll_longitude d) else gll_longitude d;
     gll_timestamp := gll_timestamp d; gll_data_valid := gll_data_valid d; gll_faa_mode := gll_faa_mode d |}.

Lemma mirror_report now nav fff k fs gs r : opposite_sides fff k fs gs -> gnss_report now nav fs fff r ->
  exists r', gnss_report now nav gs fff r' /\ source_of r' = source_of r /\
    sided_value r' k = option_map f64_neg (sided_value r k).
Proof.
  intros [(a & b & Hin & Hab) Hs] R. unfold side_fields in Hin. cbn [In] in Hin.
  decompose [or] Hin; clear Hin; try contradiction;
    match goal with H : _ = (fff, k, a, b) |- _ => injection H as <- <- <- <- end;
    inversion R as [d D|d D|d D|d D|d D]; subst; clear R.
  1: exists (PsGga (turn_gga 2 d)).
  2: exists (PsGga (turn_gga 4 d)).
  3: exists (PsRmc (turn_rmc 3 d)).
  4: exists (PsRmc (turn_rmc 5 d)).
  5: exists (PsRmc (turn_rmc 10 d)).
  6: exists (PsGll (turn_gll 1 d)).
  7: exists (PsGll (turn_gll 3 d)).
  all: (split; [constructor|split; reflexivity]).
  all: unfold gga_report, rmc_report, gll_report in *.
  all: repeat match goal with H : _ /\ _ |- _ => destruct H end.
  all: cbn [turn_gga turn_rmc turn_gll gga_source gga_timestamp gga_latitude gga_longitude gga_quality gga_satellite_count gga_hdop
    gga_altitude gga_geoid_separation gga_age_of_dgps gga_ref_station_id rmc_source rmc_timestamp rmc_status_active
    rmc_latitude rmc_longitude rmc_sog_knots rmc_bearing rmc_variation gll_source gll_latitude gll_longitude
    gll_timestamp gll_data_valid gll_faa_mode Nat.eqb].
  all: repeat split.
  all: repeat match goal with
    | Hs : forall i, i <> _ -> fld _ i = fld ?gs i |- context [fld ?gs ?i] => rewrite <- (Hs i) by discriminate end; try assumption.
  all: match goal with
    | Hab : _ /\ _ \/ _ /\ _, H : field_value (_ (fld _ ?k)) ?f ?v |- field_value (_ (fld _ ?k)) ?f (option_map f64_neg ?v) =>
        destruct Hab as [[A B]|[A B]]; rewrite A in H; rewrite B; revert H; apply field_other
    end.
  all: intros x; first [apply latitude_other|apply longitude_other|apply variation_other].
Qed.

(** ** C110 *)

(** A GNSS sentence that names the other hemisphere (or the other side of the magnetic variation) and is otherwise the
    same is accepted too and reported as the mirror image. *)
Theorem c110_other_side ovf ovf' now s s' tt fff k fs gs p p' r :
  gnss_with s tt fff fs -> gnss_with s' tt fff gs -> opposite_sides fff k fs gs ->
  clock now -> (0 <= dt_year now)%Z ->
  fst (parse_sentence ovf now s p) = Ok r ->
  exists r', fst (parse_sentence ovf' now s' p') = Ok r' /\ mirror_image k r r'.
Proof.
  intros Hs Hs' O Hc Hy R.
  assert (K : exists kinds, In (fff, kinds) field_contents).
  { destruct O as [(a & b & Hin & _) _]. unfold side_fields in Hin. cbn [In] in Hin.
    decompose [or] Hin; try contradiction;
      match goal with H : _ = (fff, k, a, b) |- _ => injection H as <- _ _ _ end; eexists; cbn [In field_contents]; tauto. }
  destruct K as (kinds & K).
  apply (gnss_report_iff ovf now s tt fff fs p r _ kinds Hs (names_system_nav tt) K Hc Hy) in R.
  destruct (mirror_report _ _ _ _ _ _ _ O R) as (r' & R' & S & V). exists r'.
  split; [now apply (gnss_report_iff ovf' now s' tt fff gs p' r' _ kinds Hs' (names_system_nav tt) K Hc Hy)|].
  destruct (report_columns _ _ _ _ _ _ _ _ R R') as [N C]. repeat (split; [assumption|]).
  intros fields P Hin Hk. apply (C fields P Hin). intros i Hi. apply O. intros ->. now apply Hk.
Qed.
Print Assumptions c110_other_side.

(** ** Messages *)

Lemma round_aux_sign prec emax s m e l :
  binary_round_aux prec emax (negb s) m e l = SFopp (binary_round_aux prec emax s m e l).
Proof.
  unfold binary_round_aux. destruct (shr_fexp prec emax m e l) as [mrs e'].
  destruct (shr_fexp prec emax _ e' loc_Exact) as [mrs' e'']. destruct (shr_m mrs') as [|q|q]; try reflexivity.
  destruct (Zle_bool e'' (emax - prec)); reflexivity.
Qed.

Lemma of_Z_neg z : z <> 0%Z -> f64_of_Z (- z) = f64_neg (f64_of_Z z).
Proof.
  intros H. unfold f64_of_Z, f64_neg. destruct z as [|q|q]; [now destruct H| |].
  - change (- Z.pos q)%Z with (Z.neg q). unfold binary_normalize, binary_round. destruct (shl_align q _ _) as [mz ez].
    apply (round_aux_sign _ _ false).
  - change (- Z.neg q)%Z with (Z.pos q). unfold binary_normalize, binary_round. destruct (shl_align q _ _) as [mz ez].
    apply (round_aux_sign _ _ true).
Qed.

Lemma div_neg x y : f64_div (f64_neg x) y = f64_neg (f64_div x y).
Proof.
  unfold f64_div, f64_neg. destruct x as [a|a| |a m e], y as [b|b| |b n f]; cbn [SFopp SFdiv]; try reflexivity;
    try (now destruct a, b).
  destruct (SFdiv_core_binary 53 1024 (Zpos m) e (Zpos n) f) as [[q e'] l].
  rewrite <- round_aux_sign. f_equal. now destruct a, b.
Qed.

Lemma degrees_neg na z : z <> 0%Z -> z <> na -> z <> (- na)%Z ->
  exists y, degrees na z = Some y /\ degrees na (- z) = Some (f64_neg y).
Proof.
  intros H0 H1 H2. unfold degrees. destruct (Z.eqb_spec z na); [contradiction|]. destruct (Z.eqb_spec (- z) na); [lia|].
  eexists. split; [reflexivity|]. now rewrite of_Z_neg, div_neg by assumption.
Qed.

(** Two messages of the same type with opposite coordinates: the values reported are opposite. Zero is its own
    opposite. The codes for 'not available' have no opposite. *)
Theorem c110_other_hemisphere ovf ovf' now now' s s' p p' tt tt' fff fff' x x' r r' t j i n na v v' :
  completes s tt fff p x -> fst (parse_sentence ovf now s p) = Ok r -> r <> PsIncomplete ->
  completes s' tt' fff' p' x' -> fst (parse_sentence ovf' now' s' p') = Ok r' -> r' <> PsIncomplete ->
  bits_at (payload_bits x) 0 6 = t -> bits_at (payload_bits x') 0 6 = t -> t <> 24 ->
  nth_error (coordinate_bits t r) j = Some (i, n, na, v) -> nth_error (coordinate_bits t r') j = Some (i, n, na, v') ->
  signed_at (payload_bits x') i n = (- signed_at (payload_bits x) i n)%Z ->
  ~ In (signed_at (payload_bits x) i n) [0; na; - na]%Z ->
  exists y, v = Some y /\ v' = Some (f64_neg y).
Proof.
  intros C H I C' H' I' K K' N J J' S D.
  destruct (message_report _ _ _ _ _ _ _ _ C H I ltac:(congruence)) as (st & own & R).
  destruct (message_report _ _ _ _ _ _ _ _ C' H' I' ltac:(congruence)) as (st' & own' & R').
  assert (G : exists y, degrees na (signed_at (payload_bits x) i n) = Some y /\
    degrees na (signed_at (payload_bits x') i n) = Some (f64_neg y)).
  { rewrite S. cbn [In] in D. apply degrees_neg; intros E; apply D; rewrite E; auto. }
  clear S D C C' H H' I I'.
  destruct R as [X|X|? ? ? ? X|X|X|X|X|? ? X|X]; rewrite K in X; inversion R' as [Y|Y|? ? ? ? Y|Y|Y|Y|Y|? ? Y|Y]; subst r';
    rewrite K' in Y; try (exfalso; cbn [In] in X, Y; intuition congruence).
  all: unfold coordinate_bits in J, J'.
  all: try (destruct j; discriminate J).
  all: try match goal with X : In ?t [1; 2; 3] |- _ =>
    replace (t =? 27) with false in J, J' by (symmetry; apply N.eqb_neq; cbn [In] in X; lia);
    replace (t =? 18) with false in J, J' by (symmetry; apply N.eqb_neq; cbn [In] in X; lia) end.
  all: try (rewrite X in J, J').
  all: try (change (18 =? 27) with false in J, J'; change (18 =? 18) with true in J, J'; cbv iota in J, J').
  all: try (change (27 =? 27) with true in J; cbv iota in J; destruct j; discriminate J).
  all: destruct j as [|[|j]]; cbn [nth_error] in J, J'; [| |destruct j; discriminate J].
  all: apply some_inj in J; apply some_inj in J'; apply pair_equal_spec in J as [J V]; apply pair_equal_spec in J' as [_ V'].
  all: apply pair_equal_spec in J as [J <-]; apply pair_equal_spec in J as [<- <-]; subst v v'.
  all: exact G.
Qed.
Print Assumptions c110_other_hemisphere.

(** Turns to port and to starboard. *)
Theorem c110_other_turn ovf ovf' now now' s s' p p' tt tt' fff fff' x x' d d' :
  completes s tt fff p x -> fst (parse_sentence ovf now s p) = Ok (PsVesselDynamicData d) ->
  completes s' tt' fff' p' x' -> fst (parse_sentence ovf' now' s' p') = Ok (PsVesselDynamicData d') ->
  In (bits_at (payload_bits x) 0 6) [1; 2; 3] -> In (bits_at (payload_bits x') 0 6) [1; 2; 3] ->
  signed_at (payload_bits x') 42 8 = (- signed_at (payload_bits x) 42 8)%Z -> signed_at (payload_bits x) 42 8 <> 0%Z ->
  signed_at (payload_bits x) 42 8 <> (-128)%Z ->
  vdd_rot d' = option_map f64_neg (vdd_rot d) /\ vdd_rot_direction d' = option_map Z.opp (vdd_rot_direction d).
Proof.
  intros C H C' H' K K' S D D'.
  destruct (message_report _ _ _ _ _ _ _ _ C H ltac:(discriminate) ltac:(intros E; rewrite E in K; cbn [In] in K; lia)) as (st & own & R).
  destruct (message_report _ _ _ _ _ _ _ _ C' H' ltac:(discriminate) ltac:(intros E; rewrite E in K'; cbn [In] in K'; lia)) as (st' & own' & R').
  inversion R as [X| | | | | |X| |X]; subst d; [|exfalso; rewrite X in K; cbn [In] in K; lia|exfalso; rewrite X in K; cbn [In] in K; lia].
  inversion R' as [Y| | | | | |Y| |Y]; subst d'; [|exfalso; rewrite Y in K'; cbn [In] in K'; lia|exfalso; rewrite Y in K'; cbn [In] in K'; lia].
  cbn [vdd_rot vdd_rot_direction]. rewrite S. set (z := signed_at (payload_bits x) 42 8) in *.
  pose proof (signed_range (payload_bits x) 42 7) as Rg. change (signed_value (window (payload_bits x) 42 8)) with z in Rg.
  unfold fits_signed in Rg. change (2 ^ (Z.of_nat 8 - 1))%Z with 128%Z in Rg.
  unfold reported_turn, turn_direction. rewrite !Z.abs_opp. split.
  - destruct (Z.abs z <=? 126)%Z; [|reflexivity]. cbn [option_map]. f_equal.
    destruct (Z.ltb_spec (- z) 0), (Z.ltb_spec z 0); try lia; [reflexivity|now rewrite neg_neg].
  - destruct (Z.eqb_spec (- z) (-128)); [lia|]. destruct (Z.eqb_spec z (-128)); [lia|].
    destruct (Z.abs z <=? 1)%Z; [reflexivity|]. cbn [option_map]. now rewrite Z.sgn_opp.
Qed.
Print Assumptions c110_other_turn.

(** A position in the north, and the same figures in the south; the magnetic variation is turned round. *)
Example c110_example :
  let s := lit "$GPRMC,225446.33,A,4916.45,N,12311.12,W,000.5,054.7,191194,020.3,E" in
  let s' := lit "$GPRMC,225446.33,A,4916.45,S,12311.12,W,000.5,054.7,191194,020.3,E" in
  let s'' := lit "$GPRMC,225446.33,A,4916.45,N,12311.12,W,000.5,054.7,191194,020.3,W" in
  clock ex_now /\
  exists fs gs hs d d' d'', gnss_with s (lit "GP") (lit "RMC") fs /\ gnss_with s' (lit "GP") (lit "RMC") gs /\
    gnss_with s'' (lit "GP") (lit "RMC") hs /\
    opposite_sides (lit "RMC") 3 fs gs /\ opposite_sides (lit "RMC") 10 fs hs /\
    fst (parse_sentence true ex_now s new_parser) = Ok (PsRmc d) /\
    fst (parse_sentence true ex_now s' new_parser) = Ok (PsRmc d') /\
    fst (parse_sentence true ex_now s'' new_parser) = Ok (PsRmc d'') /\
    rmc_latitude d <> rmc_latitude d' /\ rmc_longitude d = rmc_longitude d' /\ rmc_variation d <> rmc_variation d''.
Proof.
  cbv zeta. split; [unfold clock, year_in_range, valid_date, valid_time; cbn; lia|].
  do 6 eexists. split; [gnss|]. split; [gnss|]. split; [gnss|]. split; [|split].
  - split.
    + exists (lit "N"), (lit "S"). split; [unfold side_fields; cbn [In]; tauto|]. left. split; reflexivity.
    + intros i Hi. do 3 (destruct i as [|i]; [reflexivity|]). destruct i as [|i]; [now destruct Hi|].
      do 8 (destruct i as [|i]; [reflexivity|]). destruct i; reflexivity.
  - split.
    + exists (lit "E"), (lit "W"). split; [unfold side_fields; cbn [In]; tauto|]. left. split; reflexivity.
    + intros i Hi. do 10 (destruct i as [|i]; [reflexivity|]). destruct i as [|i]; [now destruct Hi|].
      destruct i; reflexivity.
  - do 3 (split; [vm_compute; reflexivity|]). split; [discriminate|]. split; [reflexivity|discriminate].
Qed.

(** A vessel in the north-west that turns to port, and one at the opposite position that turns to starboard. *)
Example c110_message_example :
  (let x := lit "15RTgt0s1so;90TKcjM8h6g208CQ" in let x' := lit "15RTgt051s`lnwMTD=S8h6g208CQ" in
   completes (ex_report x) (lit "AI") (lit "VDM") new_parser x /\
   completes (ex_report x') (lit "AI") (lit "VDM") new_parser x' /\
   bits_at (payload_bits x) 0 6 = 1 /\ bits_at (payload_bits x') 0 6 = 1 /\
   signed_at (payload_bits x) 61 28 = (-74037230)%Z /\ signed_at (payload_bits x') 61 28 = 74037230%Z /\
   signed_at (payload_bits x) 89 27 = 29028980%Z /\ signed_at (payload_bits x') 89 27 = (-29028980)%Z /\
   signed_at (payload_bits x) 42 8 = (-20)%Z /\ signed_at (payload_bits x') 42 8 = 20%Z /\
   exists d d', fst (parse_sentence true ex_now (ex_report x) new_parser) = Ok (PsVesselDynamicData d) /\
     fst (parse_sentence true ex_now (ex_report x') new_parser) = Ok (PsVesselDynamicData d') /\
     nth_error (coordinate_bits 1 (PsVesselDynamicData d)) 1 = Some (89%nat, 27%nat, no_latitude, vdd_latitude d) /\
     vdd_latitude d <> vdd_latitude d' /\ vdd_rot_direction d = Some (-1)%Z /\ vdd_rot_direction d' = Some 1%Z).
Proof.
  cbv zeta. split; [example_message|]. split; [example_message|]. do 8 (split; [vm_compute; reflexivity|]).
  eexists. eexists. do 2 (split; [vm_compute; reflexivity|]). split; [reflexivity|]. split; [discriminate|split; reflexivity].
Qed.
