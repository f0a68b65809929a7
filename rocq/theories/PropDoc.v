(** C72-C74: documented ranges and the two uses of the dimension bits. *)
From stdpp Require Import gmap.
From Coq Require Import List NArith ZArith Bool String Lia Reals Lra.
From Verif Require Import Base Str F64 Chrono Types Util AisMod Vdm Gnss Parser
  SpecText SpecResult SpecAis SpecState SpecGnss SpecTime SpecReal SpecFields SpecPanic SpecRange StrFacts FrontFacts CallFacts
  ResultFacts BitFacts VdmFacts LayoutFacts StateFacts RunFacts FloatFacts PropFront PropBits PropState PropStatic PropGsv PropMeasure
  PropFields PropPanic PropHist PropRange.
Import ListNotations.
Open Scope N_scope.

Local Opaque pick_string pick_u64 pick_i64.

(** ** C72, headings *)

(** Partial: a heading is a whole number of degrees up to 510, but can be above 359 (see below). *)
Theorem c72_heading_partial ovf now s p d x :
  reachable ovf p -> fst (parse_sentence ovf now s p) = Ok (PsVesselDynamicData d) -> vdd_heading_true d = Some x ->
  exists n, n <= 510 /\ real_of x = IZR (Z.of_N n).
Proof.
  set (P := fun r => match r with
                     | PsVesselDynamicData d => forall x, vdd_heading_true d = Some x -> exists n, n <= 510 /\ x = f64_of_Z (Z.of_N n)
                     | _ => True end).
  intros Hr H Hx. assert (P (PsVesselDynamicData d)) as X.
  - revert Hr H. apply (reports_have P ovf); clear; unfold P.
    + exact Logic.I.
    + now intros [].
    + intros bits own st r H. injection H as <-. cbn [vdd_heading_true]. unfold heading_at. intros x.
      pose proof (pick_lt bits 128 9 ltac:(lia)) as L. change (2 ^ N.of_nat 9) with 512 in L.
      destruct (N.eqb_spec (pick_u64 bits 128 9) 511); cbn [negb]; [discriminate|]. intros [= <-].
      exists (pick_u64 bits 128 9). split; [lia|reflexivity].
    + intros bits own st r H. unfold handle_t4 in H. inv_binds H. injection H as <-. exact Logic.I.
    + intros now bits own st r H. unfold handle_t5 in H. inv_binds H. injection H as <-. exact Logic.I.
    + intros bits own st r H. injection H as <-. exact Logic.I.
    + intros bits own st r H. injection H as <-. exact Logic.I.
    + intros bits own st r H. injection H as <-. exact Logic.I.
    + intros bits own st r H. injection H as <-. cbn [vdd_heading_true]. unfold heading_at. intros x.
      pose proof (pick_lt bits 124 9 ltac:(lia)) as L. change (2 ^ N.of_nat 9) with 512 in L.
      destruct (N.eqb_spec (pick_u64 bits 124 9) 511); cbn [negb]; [discriminate|]. intros [= <-].
      exists (pick_u64 bits 124 9). split; [lia|reflexivity].
    + intros bits own st r H. unfold handle_t21 in H. inv_binds H. injection H as <-. exact Logic.I.
    + intros bits own st r H. injection H as <-. discriminate.
    + intros. exact Logic.I.
    + intros. exact Logic.I.
  - destruct (X x Hx) as (n & Hn & ->). exists n. split; [exact Hn|]. apply f64_of_Z_exact. lia.
Qed.
Print Assumptions c72_heading_partial.

(** A class A report with heading 510. *)
Definition ex_heading : str :=
  encode_sentence (lit "AI") (lit "VDM") (lit "A")
    (layout_bits [U 6 1; U 2 0; U 30 271041815; U 4 0; I 8 0; U 10 0; F false; I 28 0; I 27 0; U 12 0; U 9 510; U 6 0; U 2 0;
                  U 3 0; F false; U 19 0]).

Theorem c72_heading_refuted :
  exists d x, parse_sentence true ex_now ex_heading new_parser = (Ok (PsVesselDynamicData d), new_parser) /\
    vdd_heading_true d = Some x /\ (359 < real_of x)%R.
Proof.
  eexists _, (f64_of_Z 510).
  split; [vm_compute; reflexivity|]. split; [vm_compute; reflexivity|].
  destruct (f64_of_Z_exact 510) as [-> _]; [lia|]. lra.
Qed.
Print Assumptions c72_heading_refuted.

Example c72_heading_example :
  exists d x, reachable true new_parser /\
    fst (parse_sentence true ex_now ex_position new_parser) = Ok (PsVesselDynamicData d) /\ vdd_heading_true d = Some x.
Proof. eexists _, _. split; [now exists []|]. split; vm_compute; reflexivity. Qed.

(** ** C73 *)

Lemma legal_block nav fprn felev fazim fsnr l :
  satellite nav fprn felev fazim fsnr l -> holds_at_most 90 felev -> holds_at_most 359 fazim -> holds_at_most 99 fsnr ->
  Forall legal_satellite l.
Proof.
  assert (L : forall m m' f o, optional_number m f o -> holds_at_most m' f -> at_most m' o).
  { intros m m' f o O H v E. destruct O as [w D _|]; [injection E as <-; now apply H|discriminate]. }
  intros S He Ha Hs. destruct S as [prn elev azim snr _ _ Oe Oa Os|_]; constructor; [|constructor].
  split; [|split]; cbn [gsv_elevation gsv_azimuth gsv_snr]; eauto.
Qed.

Lemma legal_satellites nav fields l : satellites nav fields l -> legal_gsv_fields fields -> Forall legal_satellite l.
Proof.
  intros (l0 & l1 & l2 & l3 & -> & S0 & S1 & S2 & S3) H. unfold legal_gsv_fields in H.
  repeat (apply Forall_cons_iff in H as [? H]). cbn [Nat.add] in *. destruct_and?.
  repeat (apply Forall_app; split); eapply legal_block; eassumption.
Qed.

(** A text that holds a number in range, or none. *)
Lemma holds_check max f :
  match parse_uint 18446744073709551615 f with Some v => v <=? max | None => false end || match f with [] => true | _ => false end = true ->
  holds_at_most max f.
Proof.
  intros H v D. destruct (parse_uint _ f) as [w|] eqn:E.
  - apply parse_uint_spec in E as [E _]. rewrite (StrFacts.denotes_unique f v w D E). apply orb_true_iff in H as [H|H]; [lia|].
    destruct f; [|discriminate]. destruct E as (ds & E & [N0 _] & _). destruct E as [<-|E]; [congruence|discriminate].
  - destruct f; [|discriminate]. destruct D as (ds & E' & [N0 _] & _). destruct E' as [<-|E']; [congruence|discriminate].
Qed.

(** Partial: satellite data and station numbers are in the documented ranges if the numbers in the
    sentences are; nothing is checked (see below). *)
Theorem c73_satellites_partial ovf p tt c nav fields calls :
  gsv_group tt c fields calls -> 1 <= c < 2 ^ 32 - 1 -> no_group p tt c -> names_system tt nav ->
  (forall n, 1 <= n <= c -> legal_gsv_fields (fields n)) ->
  exists l, results ovf (map snd calls) p = List.repeat (Ok PsIncomplete) (N.to_nat c - 1) ++ [Ok (PsGsv l)] /\
    Forall legal_satellite l.
Proof.
  intros HG Hc Hp Hv HL.
  pose (sats := fun n => gsv_blocks nav (join ((lit "$" ++ tt ++ lit "GSV") :: fields n))).
  assert (Hs : forall n, 1 <= n <= c -> satellites nav (fields n) (sats n)).
  { intros n Hn. destruct HG as [HP HF]. assert (I : In n (map fst calls)).
    { eapply Permutation_in; [symmetry; exact HP|]. now apply numbers_to_in. }
    apply in_map_iff in I as ((k & x) & E & I). cbn [fst] in E. subst k. rewrite Forall_forall in HF. pose proof (HF _ I) as M.
    cbn [fst snd] in M. unfold sats. rewrite (names_system_unique _ _ _ Hv (names_system_nav tt)).
    rewrite <- (names_system_unique _ _ _ Hv (names_system_nav tt)). eapply gsv_message_blocks; eassumption. }
  exists (flat_map sats (numbers_to c)). split; [now apply (c48_group_any_order ovf p tt c nav fields sats calls)|].
  apply Forall_flat_map, Forall_forall. intros n Hn. apply numbers_to_in in Hn.
  eapply legal_satellites; [now apply Hs|now apply HL].
Qed.
Print Assumptions c73_satellites_partial.

Theorem c73_station_partial ovf now s tt fields p d :
  gnss_with s tt (lit "GGA") fields -> clock now -> fst (parse_sentence ovf now s p) = Ok (PsGga d) ->
  holds_at_most 4095 (fld fields 13) -> at_most 4095 (gga_ref_station_id d).
Proof.
  intros Hs Hc Hr H v E. destruct (c46_integer_fields ovf now s tt fields p d Hs Hc Hr) as [X _].
  specialize (X 13%nat 65535 (gga_ref_station_id d) ltac:(cbn; tauto)). rewrite E in X. now apply H.
Qed.
Print Assumptions c73_station_partial.

Theorem c73_documented_ranges_refuted :
  (exists s d, fst (parse_sentence true ex_now s new_parser) = Ok (PsGsv [d]) /\ gsv_elevation d = Some 91 /\
     gsv_azimuth d = Some 360 /\ gsv_snr d = Some 100) /\
  exists s d, fst (parse_sentence true ex_now s new_parser) = Ok (PsGga d) /\ gga_ref_station_id d = Some 4096.
Proof.
  split.
  - exists (lit "$GPGSV,1,1,1,03,91,360,100"). eexists. split; [vm_compute; reflexivity|]. repeat split.
  - exists (lit "$GPGGA,123519,,,,,,,,,,,,,4096"). eexists. split; [vm_compute; reflexivity|]. reflexivity.
Qed.
Print Assumptions c73_documented_ranges_refuted.

(** ** C74 *)

(** Partial: whenever a mothership is reported, its MMSI is made of the bits of the four dimensions,
    which are reported too. *)
Theorem c74_mothership_partial ovf now s p d m :
  reachable ovf p -> fst (parse_sentence ovf now s p) = Ok (PsVesselStaticData d) -> vsd_mothership_mmsi d = Some m ->
  exists bow stern port starboard, vsd_dimension_to_bow d = Some bow /\ vsd_dimension_to_stern d = Some stern /\
    vsd_dimension_to_port d = Some port /\ vsd_dimension_to_starboard d = Some starboard /\
    bow < 2 ^ 9 /\ stern < 2 ^ 9 /\ port < 2 ^ 6 /\ starboard < 2 ^ 6 /\
    m = bow * 2 ^ 21 + stern * 2 ^ 12 + port * 2 ^ 6 + starboard.
Proof.
  set (Q := fun d => exists m bow stern port starboard, vsd_mothership_mmsi d = Some m /\
    vsd_dimension_to_bow d = Some bow /\ vsd_dimension_to_stern d = Some stern /\
    vsd_dimension_to_port d = Some port /\ vsd_dimension_to_starboard d = Some starboard /\
    bow < 2 ^ 9 /\ stern < 2 ^ 9 /\ port < 2 ^ 6 /\ starboard < 2 ^ 6 /\
    m = bow * 2 ^ 21 + stern * 2 ^ 12 + port * 2 ^ 6 + starboard).
  set (S := fun d => vsd_mothership_mmsi d = None /\ vsd_dimension_to_bow d = None /\ vsd_dimension_to_stern d = None /\
                     vsd_dimension_to_port d = None /\ vsd_dimension_to_starboard d = None \/ Q d).
  set (P := fun r => match r with PsVesselStaticData d => vsd_mothership_mmsi d = None \/ Q d | _ => True end).
  intros Hr H Hm. assert (X : P (PsVesselStaticData d)).
  - revert Hr H. apply (reports_from_parts P S ovf); clear - P S Q; unfold P, S.
    + exact Logic.I.
    + now intros [].
    + intros bits own st r H. injection H as <-. exact Logic.I.
    + intros bits own st r H. unfold handle_t4 in H. inv_binds H. injection H as <-. exact Logic.I.
    + intros now bits own st r H. unfold handle_t5 in H. inv_binds H. injection H as <-. now left.
    + intros bits own st r H. injection H as <-. exact Logic.I.
    + intros bits own st r H. injection H as <-. exact Logic.I.
    + intros bits own st r H. injection H as <-. exact Logic.I.
    + intros bits own st r H. injection H as <-. exact Logic.I.
    + intros bits own st r H. unfold handle_t21 in H. inv_binds H. injection H as <-. exact Logic.I.
    + intros bits own st r H. injection H as <-. exact Logic.I.
    + intros bits own b v H. unfold t24_fields in H. inv_binds H. injection H as <-. destruct b; [right|left; repeat split].
      unfold Q. cbn [vsd_mothership_mmsi vsd_dimension_to_bow vsd_dimension_to_stern vsd_dimension_to_port vsd_dimension_to_starboard].
      pose proof (pick_join bits 132 9 9 _ _ eq_refl eq_refl ltac:(lia)) as J1.
      pose proof (pick_join bits 132 18 6 _ _ J1 eq_refl ltac:(lia)) as J2.
      pose proof (pick_join bits 132 24 6 _ _ J2 eq_refl ltac:(lia)) as J3.
      change (24 + 6)%nat with 30%nat in J3.
      pose proof (pick_lt bits 132 9 ltac:(lia)) as L1. pose proof (pick_lt bits 141 9 ltac:(lia)) as L2.
      pose proof (pick_lt bits 150 6 ltac:(lia)) as L3. pose proof (pick_lt bits 156 6 ltac:(lia)) as L4.
      pose proof (pick_lt bits 132 30 ltac:(lia)) as L5.
      change (132 + 9)%nat with 141%nat in *. change (132 + 18)%nat with 150%nat in *. change (132 + 24)%nat with 156%nat in *.
      change (2 ^ N.of_nat 9) with 512 in *. change (2 ^ N.of_nat 6) with 64 in *. change (2 ^ N.of_nat 30) with 1073741824 in *.
      exists (pick_u64 bits 132 30), (pick_u64 bits 132 9), (pick_u64 bits 141 9), (pick_u64 bits 150 6), (pick_u64 bits 156 6).
      unfold as_u32, as_u16. rewrite !N.mod_small by (cbn; lia). change (2 ^ 9) with 512. change (2 ^ 6) with 64.
      change (2 ^ 21) with 2097152. change (2 ^ 12) with 4096. repeat (split; [first [reflexivity|assumption]|]). lia.
    + intros v w d [(A1 & A2 & A3 & A4 & A5)|A] B H; merge_fields H; cbn [vsd_mothership_mmsi].
      * destruct B as [(B1 & _)|B]; [left; now rewrite A1, B1|right]. unfold Q.
        cbn [vsd_mothership_mmsi vsd_dimension_to_bow vsd_dimension_to_stern vsd_dimension_to_port vsd_dimension_to_starboard].
        rewrite A1, A2, A3, A4, A5. exact B.
      * right. destruct A as (m & b & st & po & sb & E1 & E2 & E3 & E4 & E5 & A). unfold Q.
        cbn [vsd_mothership_mmsi vsd_dimension_to_bow vsd_dimension_to_stern vsd_dimension_to_port vsd_dimension_to_starboard].
        rewrite E1, E2, E3, E4, E5. exists m, b, st, po, sb. repeat (split; [reflexivity|]). exact A.
  - destruct X as [X|(m' & b & st & po & sb & E & X)]; [congruence|]. assert (m' = m) as -> by congruence.
    now exists b, st, po, sb.
Qed.
Print Assumptions c74_mothership_partial.

(** Only for auxiliary craft (MMSI 98XXXXXXX) are these bits the MMSI of a mothership, and then they
    are no dimensions. The crate's own test vessel is no auxiliary craft. *)
Theorem c74_mothership_refuted :
  exists s1 s2 d, results true [(ex_now, s1); (ex_now, s2)] new_parser = [Ok PsIncomplete; Ok (PsVesselStaticData d)] /\
    vsd_mmsi d / 10000000 <> 98 /\ vsd_mothership_mmsi d = Some 61445 /\ vsd_dimension_to_stern d = Some 15.
Proof.
  exists ex_part_a, ex_part_b. eexists. split; [vm_compute; reflexivity|]. split; [vm_compute; discriminate|]. split; reflexivity.
Qed.
Print Assumptions c74_mothership_refuted.

Example c74_example :
  let p := after true [(ex_now, ex_part_a)] new_parser in
  reachable true p /\ exists d, fst (parse_sentence true ex_now ex_part_b p) = Ok (PsVesselStaticData d) /\
    vsd_mothership_mmsi d = Some 61445 /\ 61445 = 0 * 2 ^ 21 + 15 * 2 ^ 12 + 0 * 2 ^ 6 + 5.
Proof.
  cbv zeta. split; [now exists [(ex_now, ex_part_a)]|]. eexists. split; [vm_compute; reflexivity|]. split; reflexivity.
Qed.

Example c73_example :
  (forall n, 1 <= n <= 3 -> legal_gsv_fields (ex_gsv_fields n)) /\
  exists d, gnss_with (lit "$GPGGA,123519,,,,,,,,,,,,,0123") (lit "GP") (lit "GGA")
      (lit "123519" :: List.repeat [] 12 ++ [lit "0123"]) /\
    fst (parse_sentence true ex_now (lit "$GPGGA,123519,,,,,,,,,,,,,0123") new_parser) = Ok (PsGga d) /\
    holds_at_most 4095 (lit "0123") /\ gga_ref_station_id d = Some 123.
Proof.
  split.
  - intros n Hn. assert (C : n = 1 \/ n = 2 \/ n = 3) by lia. destruct C as [-> |[-> | ->]];
      unfold legal_gsv_fields; repeat (constructor; [repeat split; apply holds_check; vm_compute; reflexivity|]); constructor.
  - eexists. split; [gnss|]. split; [vm_compute; reflexivity|]. split; [apply holds_check; vm_compute; reflexivity|reflexivity].
Qed.
