(** Further examples for C39-C58. *)
From stdpp Require Import gmap.
From Coq Require Import List NArith ZArith Bool String Lia Reals Lra Floats.SpecFloat.
From Verif Require Import Base Str F64 Chrono Types Util AisMod Vdm Gnss Parser
  SpecText SpecResult SpecAis SpecTime SpecState SpecGnss SpecMerge SpecCountry SpecReal SpecMeasure SpecFields
  StrFacts FrontFacts CallFacts ResultFacts BitFacts VdmFacts LayoutFacts StateFacts RunFacts FloatFacts DecimalFacts FieldFacts
  PropFront PropBits PropAis PropState PropStatic PropGsv PropMeasure PropFields PropTables Cases1 Cases2.
Import ListNotations.
Open Scope N_scope.
Local Opaque f64_div f64_mul f64_of_Z f64_of_dec.

Definition rest_fields (n : nat) (s : str) : list str := tl (split_on 44 (firstn n s)).

Lemma gga_is : gnss_with ex_gga_fields (lit "GP") (lit "GGA") (rest_fields 65 ex_gga_fields).
Proof. gnss. Qed.
Lemma rmc_is : gnss_with ex_rmc_fields (lit "GN") (lit "RMC") (rest_fields 100 ex_rmc_fields).
Proof. gnss. Qed.
Lemma gsa_is : gnss_with ex_gsa_fields (lit "GP") (lit "GSA") (rest_fields 50 ex_gsa_fields).
Proof. gnss. Qed.
Lemma gll_is : gnss_with ex_gll_fields (lit "GL") (lit "GLL") (rest_fields 100 ex_gll_fields).
Proof. gnss. Qed.
Definition ex_vtg_fields := lit "$GPVTG,-12.5e1,T,x,M,,N,0.5,K,E".
Lemma vtg_is : gnss_with ex_vtg_fields (lit "GP") (lit "VTG") (rest_fields 100 ex_vtg_fields).
Proof. gnss. Qed.
Lemma now_fine : clock ex_now.
Proof. fine_clock. Qed.
Lemma year_fine : (0 <= dt_year ex_now)%Z.
Proof. discriminate. Qed.

(** ** C39-C43 *)


Ltac answer H := let r := fresh "r" in let E := fresh "E" in
  match goal with |- context [parse_sentence ?ovf ?now ?s ?p] =>
    assert (exists r, fst (parse_sentence ovf now s p) = Ok r) as (r & E) by (eexists; destruct ovf; vm_compute; reflexivity);
    let d := fresh "d" in let D := fresh "D" in destruct (proj1 (H r) E) as (d & -> & D); now exists d
  end.

Example c39_gga_case ovf p : exists d, fst (parse_sentence ovf ex_now ex_gga_fields p) = Ok (PsGga d) /\
  gga_report ex_now NavGps (rest_fields 65 ex_gga_fields) d.
Proof.
  destruct (c39_gga ovf ex_now _ _ NavGps _ p gga_is (names_system_nav (lit "GP")) now_fine) as (_ & H & _). answer H.
Qed.

Example c40_rmc_case ovf p : exists d, fst (parse_sentence ovf ex_now ex_rmc_fields p) = Ok (PsRmc d) /\
  rmc_report ex_now NavCombination (rest_fields 100 ex_rmc_fields) d.
Proof.
  destruct (c40_rmc ovf ex_now _ _ NavCombination _ p rmc_is (names_system_nav (lit "GN")) year_fine) as (_ & H & _). answer H.
Qed.

Example c41_gsa_case ovf p : exists d, fst (parse_sentence ovf ex_now ex_gsa_fields p) = Ok (PsGsa d) /\
  gsa_report NavGps (rest_fields 50 ex_gsa_fields) d.
Proof.
  destruct (c41_gsa ovf ex_now _ _ NavGps _ p gsa_is (names_system_nav (lit "GP"))) as (_ & H & _). answer H.
Qed.

Example c41_at_most_twelve_case ovf p : exists d, fst (parse_sentence ovf ex_now ex_gsa_fields p) = Ok (PsGsa d) /\
  (List.length (gsa_prn_numbers d) <= 12)%nat.
Proof.
  destruct (c41_gsa_case ovf p) as (d & D & _). exists d. split; [exact D|].
  exact (proj1 (c41_at_most_twelve ovf ex_now _ _ _ p d gsa_is D)).
Qed.

Example c42_gll_case ovf p : exists d, fst (parse_sentence ovf ex_now ex_gll_fields p) = Ok (PsGll d) /\
  gll_report ex_now NavGlonass (rest_fields 100 ex_gll_fields) d.
Proof.
  destruct (c42_gll ovf ex_now _ _ NavGlonass _ p gll_is (names_system_nav (lit "GL")) now_fine) as (_ & H & _). answer H.
Qed.

Example c43_vtg_case ovf p : exists d, fst (parse_sentence ovf ex_now ex_vtg_fields p) = Ok (PsVtg d) /\
  vtg_report NavGps (rest_fields 100 ex_vtg_fields) d.
Proof.
  destruct (c43_vtg ovf ex_now _ _ NavGps _ p vtg_is (names_system_nav (lit "GP"))) as ((d & D) & H).
  assert (E : fst (parse_sentence ovf ex_now ex_vtg_fields p) = Ok (PsVtg d)) by now rewrite D.
  exists d. split; [exact E|]. now apply H.
Qed.

(** ** C44, C45 *)

Lemma gga_coordinates ovf p : exists d x y, fst (parse_sentence ovf ex_now ex_gga_fields p) = Ok (PsGga d) /\
  gga_latitude d = Some x /\ gga_longitude d = Some y.
Proof. do 3 eexists. destruct ovf; (split; [vm_compute; reflexivity|]; split; vm_compute; reflexivity). Qed.

Lemma in_gga_rmc_gll_1 : In (lit "GGA") [lit "GGA"; lit "RMC"; lit "GLL"].
Proof. now left. Qed.
Lemma in_gga_rmc_gll_3 : In (lit "GLL") [lit "GGA"; lit "RMC"; lit "GLL"].
Proof. now right; right; left. Qed.

Lemma ex_latitude : degrees_minutes 2 (lit "4807.038") 48 (decimal_size 7038 (-3)).
Proof.
  apply degrees_minutes_intro with (dd := lit "48") (mm := lit "07") (frac := lit "038") (rest := []); try reflexivity; try discriminate;
    repeat constructor; discriminate.
Qed.

Lemma ex_minutes : decimal_size 7038 (-3) = (7038 / 1000)%R.
Proof.
  unfold decimal_size. change (-3)%Z with (- (3))%Z. rewrite powerRZ_neg'. change (Z.of_N 7038) with 7038%Z.
  change (powerRZ 10 3) with (10 * (10 * (10 * 1)))%R. lra.
Qed.

Example c44_text_coordinates_case ovf p : exists d x, fst (parse_sentence ovf ex_now ex_gga_fields p) = Ok (PsGga d) /\
  gga_longitude d = Some x /\ negative x = true.
Proof.
  destruct (gga_coordinates ovf p) as (d & x & y & E & _ & Y). exists d, y. split; [exact E|]. split; [exact Y|].
  pose proof (c44_text_coordinates ovf ex_now _ _ _ _ p _ 3 (lit "W") 3 4 (Some y) gga_is in_gga_rmc_gll_1 now_fine year_fine E
    ltac:(cbn [coordinates]; rewrite Y; now right; left)) as (dg & mn & _ & _ & _ & H & _).
  exact (proj1 (H eq_refl)).
Qed.

Definition ex_gll_east := lit "$GLGLL,4916.45,N,12311.12,E,225444,A,D".
Lemma gll_east_is : gnss_with ex_gll_east (lit "GL") (lit "GLL") (rest_fields 100 ex_gll_east).
Proof. gnss. Qed.

Example c44_mirror_case : exists d e x y,
  fst (parse_sentence true ex_now ex_gll_fields new_parser) = Ok (PsGll d) /\ gll_longitude d = Some x /\
  fst (parse_sentence true ex_now ex_gll_east new_parser) = Ok (PsGll e) /\ gll_longitude e = Some y /\ x = f64_neg y.
Proof.
  assert (A : exists d x, fst (parse_sentence true ex_now ex_gll_fields new_parser) = Ok (PsGll d) /\ gll_longitude d = Some x)
    by (do 2 eexists; split; vm_compute; reflexivity).
  assert (B : exists d x, fst (parse_sentence true ex_now ex_gll_east new_parser) = Ok (PsGll d) /\ gll_longitude d = Some x)
    by (do 2 eexists; split; vm_compute; reflexivity).
  destruct A as (d & x & A & X), B as (e & y & B & Y). exists d, e, x, y. repeat (split; [assumption|]).
  eapply (c44_mirror true ex_now _ _ _ _ _ _ _ _ _ _ _ _ 3 (lit "W") 2 3 2 3 x y gll_is in_gga_rmc_gll_3 gll_east_is in_gga_rmc_gll_3
    now_fine year_fine A B); [cbn [coordinates]; rewrite X; now right; left|cbn [coordinates]; rewrite Y; now right; left
    |reflexivity|reflexivity|discriminate].
Qed.

Example c45_in_range_case ovf p : exists d x, fst (parse_sentence ovf ex_now ex_gga_fields p) = Ok (PsGga d) /\
  gga_latitude d = Some x /\ (IZR 48 <= Rabs (real_of x) <= IZR 49)%R.
Proof.
  destruct (gga_coordinates ovf p) as (d & x & y & E & X & _). exists d, x. split; [exact E|]. split; [exact X|].
  pose proof (fun limit => c45_in_range ovf ex_now _ _ _ _ p _ 2 (lit "S") 1 2 x _ _ limit gga_is in_gga_rmc_gll_1 now_fine year_fine E
    ltac:(cbn [coordinates]; rewrite X; now left) ex_latitude) as H.
  pose proof ex_minutes as V.
  split.
  - apply (H 48%Z); [lia|]. rewrite V. change (Z.of_N 48) with 48%Z. lra.
  - apply (H 49%Z); [lia|]. rewrite V. change (Z.of_N 48) with 48%Z. lra.
Qed.

Example c45_legal_text_case ovf p : exists d x, fst (parse_sentence ovf ex_now ex_gga_fields p) = Ok (PsGga d) /\
  gga_latitude d = Some x /\ (Rabs (real_of x) <= IZR 90)%R.
Proof.
  destruct (gga_coordinates ovf p) as (d & x & y & E & X & _). exists d, x. split; [exact E|]. split; [exact X|].
  apply (c45_legal_text ovf ex_now _ _ _ _ p _ 2 (lit "S") 1 2 x _ _ gga_is in_gga_rmc_gll_1 now_fine year_fine E
    ltac:(cbn [coordinates]; rewrite X; now left) ex_latitude).
  pose proof ex_minutes as V.
  left. rewrite V. split; [reflexivity|lra].
Qed.

(** ** C46, C47 *)

Example c46_integer_fields_case ovf p : exists d, fst (parse_sentence ovf ex_now ex_gga_fields p) = Ok (PsGga d) /\
  (forall i max o, In (i, max, o) (integers d) ->
     match o with None => fld (rest_fields 65 ex_gga_fields) i = []
     | Some v => denotes (fld (rest_fields 65 ex_gga_fields) i) v /\ v <= max end).
Proof.
  destruct (gga_coordinates ovf p) as (d & x & y & E & _). exists d. split; [exact E|].
  exact (proj1 (c46_integer_fields ovf ex_now _ _ _ p d gga_is now_fine E)).
Qed.

Example c46_round_trip_case ovf p : exists d, fst (parse_sentence ovf ex_now ex_gga_fields p) = Ok (PsGga d) /\
  In (6%nat, 255, Some 8) (integers d).
Proof.
  destruct (gga_coordinates ovf p) as (d & x & y & E & _). exists d. split; [exact E|].
  apply (proj1 (c46_round_trip ovf ex_now _ _ _ p 6 255 8 1 gga_is now_fine ltac:(cbn; tauto) eq_refl)); [discriminate|exact E].
Qed.

Definition ex_many := lit "$GPGGA,123519,,,,,8,256,,,,,,,".
Lemma many_is : gnss_with ex_many (lit "GP") (lit "GGA") (rest_fields 100 ex_many).
Proof. gnss. Qed.
Example c46_round_trip_refused_case ovf p r : fst (parse_sentence ovf ex_now ex_many p) <> Ok r.
Proof. apply (proj2 (c46_round_trip ovf ex_now _ _ _ p 6 255 256 0 many_is now_fine ltac:(cbn; tauto) eq_refl)). reflexivity. Qed.

Example c47_nearest_double_case : exists d x,
  fst (parse_sentence true ex_now ex_vtg_fields new_parser) = Ok (PsVtg d) /\ vtg_cog_true d = Some x /\
  nearest (- decimal_size 125 0)%R x.
Proof.
  destruct (c43_vtg_case true new_parser) as (d & D & _).
  destruct c47_example as (_ & T & B).
  destruct (c47_nearest_double true ex_now _ _ _ _ new_parser _ 0 (vtg_cog_true d) true 125 0%Z vtg_is
    ltac:(cbn; tauto) now_fine year_fine D ltac:(now left) T B) as (x & X & _ & _ & H).
  exists d, x. auto.
Qed.

Example c47_only_numbers_case : exists d x,
  fst (parse_sentence true ex_now ex_vtg_fields new_parser) = Ok (PsVtg d) /\ vtg_sog_kph d = Some x /\
  reads_double (lit "0.5") x.
Proof.
  assert (A : exists d x, fst (parse_sentence true ex_now ex_vtg_fields new_parser) = Ok (PsVtg d) /\ vtg_sog_kph d = Some x)
    by (do 2 eexists; split; vm_compute; reflexivity).
  destruct A as (d & x & D & X). exists d, x. split; [exact D|]. split; [exact X|].
  exact (c47_only_numbers true ex_now _ _ _ _ new_parser _ 6 x vtg_is ltac:(cbn; tauto) now_fine year_fine D
    ltac:(cbn [decimals]; rewrite X; now right; right; right; left)).
Qed.

(** ** C55-C58 *)

Lemma ex_gga_time : six_digits (fld (rest_fields 65 ex_gga_fields) 0) 12 35 19.
Proof. exists 49, 50, 51, 53, 49, 57, (lit ".00"). split; [reflexivity|]. split; [repeat constructor; discriminate|auto]. Qed.

Example c55_time_of_day_case ovf p : exists d, fst (parse_sentence ovf ex_now ex_gga_fields p) = Ok (PsGga d) /\
  gga_timestamp d = Some (mk_datetime (dt_year ex_now) (dt_month ex_now) (dt_day ex_now) 12 35 19 0).
Proof.
  destruct (gga_coordinates ovf p) as (d & x & y & E & _). exists d. split; [exact E|].
  exact (proj1 (c55_time_of_day ovf ex_now _ _ _ _ p _ 0 _ _ _ _ gga_is ltac:(cbn; tauto) now_fine year_fine E ltac:(now left) ex_gga_time)).
Qed.

Definition ex_odd_time := lit "$GPGGA,12x519,,,,,,,,,,,,,".
Lemma odd_time_is : gnss_with ex_odd_time (lit "GP") (lit "GGA") (rest_fields 100 ex_odd_time).
Proof. gnss. Qed.
Example c55_no_time_case ovf p : exists d, fst (parse_sentence ovf ex_now ex_odd_time p) = Ok (PsGga d) /\ gga_timestamp d = None.
Proof.
  assert (A : exists d, fst (parse_sentence ovf ex_now ex_odd_time p) = Ok (PsGga d)) by (eexists; destruct ovf; vm_compute; reflexivity).
  destruct A as (d & D). exists d. split; [exact D|].
  apply (c55_no_time ovf ex_now _ _ _ _ p _ 0 _ odd_time_is ltac:(cbn; tauto) now_fine year_fine D ltac:(now left)).
  exists (lit "12"), (lit "x5"), (lit "19"). split; [reflexivity|]. split; [reflexivity|]. split; [auto|].
  intros v (ds & [E|E] & (_ & F) & _); [|discriminate E]. subst ds.
  inversion F as [|? ? B _]. subst. vm_compute in B. intuition discriminate.
Qed.

Example c56_date_and_time_case ovf p : exists d year, fst (parse_sentence ovf ex_now ex_rmc_fields p) = Ok (PsRmc d) /\
  rmc_timestamp d = Some (mk_datetime year 11 19 22 54 46 0) /\ (year mod 100 = 94)%Z.
Proof.
  destruct (c40_rmc_case ovf p) as (d & D & _). destruct c56_example as (A & B & _).
  destruct (c56_date_and_time ovf ex_now _ _ _ p d _ _ _ _ _ _ rmc_is year_fine D A B) as (year & T & _ & Y & _).
  now exists d, year.
Qed.

Example c57_trailing_commas_case ovf p :
  fst (parse_sentence ovf ex_now (lit "$GPGSA,A,2,11") p) = fst (parse_sentence ovf ex_now (lit "$GPGSA,A,2,11,,,") p).
Proof.
  apply (c57_trailing_commas ovf ex_now _ _ (lit "GP") (lit "GSA") [lit "A"; lit "2"; lit "11"] 3 p p);
    [|cbn [app repeat]|cbn; tauto]; apply check_gnss; try reflexivity; try discriminate; apply check_sentence; vm_compute; auto.
Qed.

Example c57_missing_fields_case ovf p :
  fst (parse_sentence ovf ex_now (lit "$GPGSA,A,2,11") p) = fst (parse_sentence ovf ex_now (lit "$GPGSA,A,2,11,") p).
Proof.
  apply (c57_missing_fields ovf ex_now _ _ (lit "GP") (lit "GSA") [lit "A"; lit "2"; lit "11"] [lit "A"; lit "2"; lit "11"; []] p p);
    [| |cbn; tauto|intros [|[|[|[|[|i]]]]]; reflexivity]; apply check_gnss; try reflexivity; try discriminate;
    apply check_sentence; vm_compute; auto.
Qed.

Example c58_modes_case ovf p : exists d m, fst (parse_sentence ovf ex_now ex_vtg_fields p) = Ok (PsVtg d) /\
  vtg_faa_mode d = Some m /\ FaaMode_display m = lit "E".
Proof.
  destruct (c43_vtg_case ovf p) as (d & D & _).
  destruct (c58_modes ovf ex_now _ _ _ _ p _ 8 (vtg_faa_mode d) vtg_is ltac:(cbn; tauto) now_fine year_fine D ltac:(now left)) as [A B].
  destruct (vtg_faa_mode d) as [m|] eqn:M; [|exfalso; apply (proj1 B); [now right; right; left|reflexivity]].
  exists d, m. split; [exact D|]. split; [exact M|]. exact (A m eq_refl).
Qed.

(** ** C52-C54 *)

Lemma ex_eta ship month day hour minute draught :
  fits 8 ship -> fits 4 month -> fits 5 day -> fits 5 hour -> fits 6 minute -> fits 8 draught ->
  voyage (ex_voyage_sentence ship month day hour minute draught) (lit "VDM") 351759000 ship month day hour minute draught.
Proof. apply ex_voyage_is. Qed.

Example c53_voyage_partial_case : exists d,
  fst (parse_sentence true ex_now (ex_voyage_sentence 71 5 15 14 0 122) new_parser) = Ok (PsVesselStaticData d) /\
  vsd_cargo_type d = cargo_type 71 /\ vsd_ship_type d = documented_ship_type 71.
Proof.
  destruct c53_example as (d & D & _). exists d. split; [exact D|].
  destruct (c53_voyage_partial _ _ _ _ _ _ 71 5 15 14 0 122 _ (ex_eta 71 5 15 14 0 122 eq_refl eq_refl eq_refl eq_refl eq_refl eq_refl) D) as [A B].
  split; [exact A|]. apply B. lia.
Qed.

Example c53_voyage_refuted_case : exists d,
  fst (parse_sentence true ex_now (ex_voyage_sentence 89 5 15 14 0 122) new_parser) = Ok (PsVesselStaticData d) /\
  vsd_ship_type d <> documented_ship_type 89.
Proof.
  destruct c53_example as (_ & _ & _ & _ & d & D & _). exists d. split; [exact D|].
  apply (c53_voyage_refuted _ _ _ _ _ _ 89 5 15 14 0 122 _ (ex_eta 89 5 15 14 0 122 eq_refl eq_refl eq_refl eq_refl eq_refl eq_refl) ltac:(lia) D).
Qed.

Example c53_class_b_partial_case ovf : exists d,
  results ovf [(ex_now, ex_part_a); (ex_now, ex_part_b)] new_parser = [Ok PsIncomplete; Ok (PsVesselStaticData d)] /\
  vsd_ship_type d = documented_ship_type 60.
Proof.
  destruct (c53_class_b_partial ovf ex_now ex_now [] ex_part_a ex_part_b (lit "VDM") (lit "VDM") new_parser
    _ _ _ _ _ _ _ _ _ _ _ ex_part_a_is ex_part_b_is eq_refl Logic.I) as (d & D & _ & S).
  exists d. split; [exact D|]. apply S. lia.
Qed.

Definition june := mk_datetime 2020 6 1 0 0 0 0.
Definition april := mk_datetime 2020 4 1 0 0 0 0.
Lemma june_fine : clock june. Proof. fine_clock. Qed.
Lemma april_fine : clock april. Proof. fine_clock. Qed.

Example c54_eta_case ovf p : fst (parse_sentence ovf april (ex_voyage_sentence 70 5 15 14 0 244) p) = Panic.
Proof.
  apply (proj1 (c54_eta ovf april _ p _ _ 70 5 15 14 0 244 (ex_eta 70 5 15 14 0 244 eq_refl eq_refl eq_refl eq_refl eq_refl eq_refl))).
  intros eta E. destruct E as [_ _ _ _ X|mo d h mi sec _ _ _ C _ _ T]; [discriminate X|]. destruct T as (_ & _ & T).
  destruct C as [(X & _)|[(_ & X & _)|(_ & _ & _ & _ & X)]]; [discriminate X|discriminate X|]. vm_compute in X. subst sec. discriminate T.
Qed.

Example c54_none_partial_case ovf p : exists d,
  fst (parse_sentence ovf april (ex_voyage_sentence 70 0 0 24 60 242) p) = Ok (PsVesselStaticData d) /\ vsd_eta d = None.
Proof.
  assert (A : exists d, fst (parse_sentence ovf april (ex_voyage_sentence 70 0 0 24 60 242) p) = Ok (PsVesselStaticData d))
    by (eexists; destruct ovf; vm_compute; reflexivity).
  destruct A as (d & D). exists d. split; [exact D|].
  apply (c54_none_partial ovf april _ p _ _ 70 0 0 24 60 242 d (ex_eta 70 0 0 24 60 242 eq_refl eq_refl eq_refl eq_refl eq_refl eq_refl) D). lia.
Qed.

Example c54_not_available_refuted_case ovf p : exists d,
  fst (parse_sentence ovf april (ex_voyage_sentence 70 0 0 24 60 122) p) = Ok (PsVesselStaticData d) /\
  vsd_eta d = Some (mk_datetime 2020 4 1 23 59 59 0).
Proof.
  exact (c54_not_available_refuted ovf april _ p _ _ 70 122 (ex_eta 70 0 0 24 60 122 eq_refl eq_refl eq_refl eq_refl eq_refl eq_refl)
    april_fine ltac:(lia)).
Qed.

Example c54_this_year_partial_case ovf p : exists d t,
  fst (parse_sentence ovf april (ex_voyage_sentence 70 5 15 14 0 122) p) = Ok (PsVesselStaticData d) /\
  vsd_eta d = Some (mk_datetime (dt_year t) (dt_month t) (dt_day t) (dt_hour t) (dt_minute t) (122 / 4) 0) /\
  next_moment april 5 15 14 0 t.
Proof.
  apply (c54_this_year_partial ovf april _ p _ _ 70 5 15 14 0 122 (ex_eta 70 5 15 14 0 122 eq_refl eq_refl eq_refl eq_refl eq_refl eq_refl)
    april_fine); try lia.
  - vm_compute; repeat split; intuition discriminate.
  - exact (proj1 (proj2 (proj2 c54_example))).
Qed.

Example c54_past_refuted_case ovf p : exists d t,
  fst (parse_sentence ovf june (ex_voyage_sentence 70 5 15 14 0 122) p) = Ok (PsVesselStaticData d) /\ vsd_eta d = Some t /\
  earlier t june.
Proof.
  destruct (c54_past_refuted ovf june _ p _ _ 70 5 15 14 0 122 (ex_eta 70 5 15 14 0 122 eq_refl eq_refl eq_refl eq_refl eq_refl eq_refl)
    june_fine) as (d & t & D & T & E & _); try lia.
  - vm_compute; repeat split; intuition discriminate.
  - exact (proj1 (proj2 c54_example)).
  - exists d, t. split; [exact D|]. split; [exact T|exact E].
Qed.
