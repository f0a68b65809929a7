(** C80: texts of ship types, cargo types, classes and positioning systems belong to the transmitted code. *)
From Coq Require Import List NArith ZArith Bool String Lia.
From Verif Require Import Base Str F64 Chrono Types Util AisMod Vdm Gnss Parser Display
  SpecText SpecResult SpecTime SpecAis SpecState SpecReal SpecMeasure SpecFields SpecDisplay StrFacts FrontFacts CallFacts ResultFacts
  BitFacts VdmFacts LayoutFacts PropFront PropMeasure PropAis PropStatic PropTables.
Import ListNotations.
Open Scope N_scope.

Local Opaque pick_string pick_u64 pick_i64.

(** ** C80 *)

Lemma below_256 (P : N -> Prop) : (forall k, (k < 256)%nat -> P (N.of_nat k)) -> forall v, fits 8 v -> P v.
Proof.
  intros H v F. unfold fits in F. change (2 ^ N.of_nat 8) with 256 in F.
  rewrite <- (N2Nat.id v). apply H. lia.
Qed.

Lemma ship_text code : fits 8 code ->
  (~ (80 <= code <= 99) -> ship_type_name code (ShipType_display (reported_ship_type code))) /\
  (80 <= code <= 99 -> ShipType_display (reported_ship_type code) = lit "cargo").
Proof.
  intros F. split.
  - intros N.
    assert (C : forallb (fun k => let code := N.of_nat k in (80 <=? code) && (code <=? 99) ||
        existsb (fun e => (fst (fst e) <=? code) && (code <=? snd (fst e)) && str_eqb (snd e) (ShipType_display (reported_ship_type code)))
          ship_type_names) (seq 0 256) = true) by (vm_compute; reflexivity).
    rewrite forallb_forall in C. unfold fits in F. change (2 ^ N.of_nat 8) with 256 in F.
    specialize (C (N.to_nat code) ltac:(apply in_seq; lia)). cbv zeta in C. rewrite N2Nat.id in C.
    rewrite orb_true_iff, andb_true_iff, !N.leb_le in C. destruct C as [C|C]; [lia|].
    apply existsb_exists in C as ([[a b] t] & I & C). cbn [fst snd] in C.
    rewrite !andb_true_iff, !N.leb_le in C. destruct C as [C E]. destruct (str_eqb_spec t (ShipType_display (reported_ship_type code))) as [<-|]; [|discriminate].
    now exists a, b.
  - intros H. unfold reported_ship_type. destruct (N.leb_spec 80 code), (N.leb_spec code 99); cbn [andb]; lia || reflexivity.
Qed.

Lemma cargo_text code : fits 8 code -> cargo_name code (CargoType_display (cargo_type code)).
Proof.
  revert code. apply below_256. intros k Hk.
  pose proof (N.div_mod (N.of_nat k) 10 ltac:(lia)) as D. pose proof (N.mod_lt (N.of_nat k) 10 ltac:(lia)) as M.
  unfold cargo_type. destruct (existsb (N.eqb (N.of_nat k / 10)) [1; 2; 4; 6; 7; 8; 9]) eqn:E.
  - apply existsb_exists in E as (t & I & E). apply N.eqb_eq in E. rewrite E in D.
    assert (H : N.of_nat k mod 10 <= 4 \/ 5 <= N.of_nat k mod 10 <= 9) by lia. revert H D M.
    generalize (N.of_nat k mod 10) as u. intros u [H|H] D M.
    + apply cargo_class with t u; [exact D|exact I|].
      assert (u = 0 \/ u = 1 \/ u = 2 \/ u = 3 \/ u = 4) as [-> |[-> |[-> |[-> | ->]]]] by lia; reflexivity.
    + replace (CargoType_display _) with (lit "(reserved)"); [now apply cargo_reserved with t u|].
      assert (u = 5 \/ u = 6 \/ u = 7 \/ u = 8 \/ u = 9) as [-> |[-> |[-> |[-> | ->]]]] by lia; reflexivity.
  - apply cargo_none with (N.of_nat k / 10) (N.of_nat k mod 10); [exact D|lia|]. intros I.
    assert (X : existsb (N.eqb (N.of_nat k / 10)) [1; 2; 4; 6; 7; 8; 9] = true); [|congruence].
    apply existsb_exists. exists (N.of_nat k / 10). split; [exact I|apply N.eqb_refl].
Qed.

(** The texts of the ship and cargo type of a voyage report belong to the eight bits of the code, in any
    message of type 5, also a truncated one.
    Partial: codes 80 to 99 are shown as cargo. *)
Theorem c80_voyage_texts_partial ovf now s p tt fff bits d :
  one_fragment s tt fff (armor bits) -> message_type bits 5 ->
  fst (parse_sentence ovf now s p) = Ok (PsVesselStaticData d) ->
  let code := be_value (window bits 232 8) in
  cargo_name code (CargoType_display (vsd_cargo_type d)) /\
  (~ (80 <= code <= 99) -> ship_type_name code (ShipType_display (vsd_ship_type d))) /\
  (80 <= code <= 99 -> ShipType_display (vsd_ship_type d) = lit "cargo").
Proof.
  intros Hs Ht Hr. rewrite (one_fragment_bits _ _ _ _ _ _ _ Hs) in Hr. unfold message_type in Ht.
  unfold dispatch_message in Hr. rewrite pick_u64_spec, Ht in Hr by lia. cbn [fst] in Hr.
  pose proof (unsigned_range bits 232 8) as F.
  unfold handle_t5 in Hr. inv_binds Hr. injection Hr as <-. cbn [vsd_ship_type vsd_cargo_type].
  rewrite pick_u64_spec by lia. unfold as_u8. rewrite N.mod_small by exact F.
  rewrite ship_value, cargo_value by exact F. split; [now apply cargo_text|]. now apply ship_text.
Qed.
Print Assumptions c80_voyage_texts_partial.

(** The same for class B vessels, whose code is in part B; these are shown as 'Class B'. *)
Theorem c80_class_b_texts_partial ovf now1 now2 h s1 s2 fff1 fff2 p
    mmsi name ship vendor model serial call_sign bow stern port starboard :
  part_a s1 fff1 mmsi name ->
  part_b s2 fff2 mmsi ship vendor model serial call_sign bow stern port starboard ->
  stored p (Vessel mmsi) = None -> touches_only ovf (fun e => e <> Vessel mmsi) h p ->
  exists d, results ovf ((now1, s1) :: h ++ [(now2, s2)]) p =
    Ok PsIncomplete :: results ovf h p ++ [Ok (PsVesselStaticData d)] /\
    AisClass_display (vsd_ais_type d) = lit "Class B" /\
    cargo_name ship (CargoType_display (vsd_cargo_type d)) /\
    (~ (80 <= ship <= 99) -> ship_type_name ship (ShipType_display (vsd_ship_type d))) /\
    (80 <= ship <= 99 -> ShipType_display (vsd_ship_type d) = lit "cargo").
Proof.
  intros H1 H2 H3 H4. eexists. split.
  - unfold results. now rewrite (c29_part_a_then_b ovf now1 now2 h s1 s2 fff1 fff2 p mmsi name ship vendor model serial
      call_sign bow stern port starboard H1 H2 H3 H4).
  - cbn [class_b_report vsd_cargo_type vsd_ship_type vsd_ais_type]. split; [reflexivity|].
    destruct H2 as (_ & _ & _ & _ & _ & _ & _ & F & _).
    split; [now apply cargo_text|]. now apply ship_text.
Qed.
Print Assumptions c80_class_b_texts_partial.

(** Position reports show the class of the transponder that sends them: types 1 to 3 and 27 are sent by
    class A, type 18 by class B. *)
Theorem c80_class_texts ovf now s p tt fff bits d t :
  one_fragment s tt fff (armor bits) -> message_type bits t ->
  fst (parse_sentence ovf now s p) = Ok (PsVesselDynamicData d) ->
  AisClass_display (vdd_ais_type d) = lit "Class A" /\ In t [1; 2; 3; 27] \/
  AisClass_display (vdd_ais_type d) = lit "Class B" /\ t = 18.
Proof.
  intros Hs Ht Hr. rewrite (one_fragment_bits _ _ _ _ _ _ _ Hs) in Hr. unfold message_type in Ht.
  pose proof (dispatch_message_case now (lit "!" ++ fff) bits (station_of_talker tt) (str_eqb (lit "!" ++ fff) (lit "!VDO")) p) as C.
  rewrite pick_u64_spec, Ht in C by lia.
  match type of Hr with fst ?x = _ => match type of C with message_case _ _ _ _ _ _ _ ?y => change y with x in C end end.
  destruct C as [n Hn| | | | | | | | | | |n Hn]; cbn [fst] in Hr.
  - injection Hr as <-. left. split; [reflexivity|]. cbn [In]. destruct Hn as [-> |[-> | ->]]; tauto.
  - unfold handle_t4 in Hr. inv_binds Hr. discriminate.
  - unfold handle_t5 in Hr. inv_binds Hr. discriminate.
  - discriminate.
  - discriminate.
  - discriminate.
  - injection Hr as <-. right. split; reflexivity.
  - discriminate.
  - unfold handle_t21 in Hr. inv_binds Hr. discriminate.
  - exfalso. unfold handle_t24 in Hr. destruct ((pick_u64 bits 38 2 =? 0) || (pick_u64 bits 38 2 =? 1)); [|discriminate].
    destruct (t24_fields bits _ _) as [v| |]; [|discriminate|discriminate].
    unfold t24_store in Hr. destruct (pull_vsd (vsd_mmsi v) p) as [[v2|] p']; [|discriminate].
    cbn [fst] in Hr. destruct (merge v v2); discriminate.
  - injection Hr as <-. left. split; [reflexivity|]. cbn [In]. tauto.
  - discriminate.
Qed.
Print Assumptions c80_class_texts.

(** The text of the state of the positioning system belongs to the six bits of the time stamp. *)
Theorem c80_positioning_texts ovf now s p tt fff bits d t :
  one_fragment s tt fff (armor bits) -> message_type bits t -> In t [1; 2; 3] ->
  fst (parse_sentence ovf now s p) = Ok (PsVesselDynamicData d) ->
  option_map PositioningSystemMeta_display (vdd_positioning_system_meta d) = positioning_name (be_value (window bits 137 6)).
Proof.
  intros Hs Ht Ht' Hr. rewrite (one_fragment_bits _ _ _ _ _ _ _ Hs) in Hr. unfold message_type in Ht.
  unfold dispatch_message in Hr. rewrite pick_u64_spec, Ht in Hr by lia.
  assert (R : handle_t1t2t3 bits (station_of_talker tt) (str_eqb (lit "!" ++ fff) (lit "!VDO")) = Ok (PsVesselDynamicData d)).
  { cbn [In] in Ht'. destruct Ht' as [<-|[<-|[<-|[]]]]; exact Hr. }
  injection R as <-. cbn [vdd_positioning_system_meta]. rewrite pick_u64_spec by lia.
  pose proof (unsigned_range bits 137 6) as F. unfold fits in F. change (2 ^ N.of_nat 6) with 64 in F.
  unfold as_u16. rewrite N.mod_small by lia. rewrite meta_value by exact F.
  unfold positioning_state, positioning_name. destruct (N.ltb_spec (be_value (window bits 137 6)) 60); [reflexivity|].
  assert (X : be_value (window bits 137 6) = 60 \/ be_value (window bits 137 6) = 61 \/
    be_value (window bits 137 6) = 62 \/ be_value (window bits 137 6) = 63) by lia.
  destruct X as [-> |[-> |[-> | ->]]]; reflexivity.
Qed.
Print Assumptions c80_positioning_texts.

(** The texts of all documented ship types, also of those that no report shows (tankers and others). *)
Theorem c80_documented_ship_texts code : code < 256 -> ship_type_name code (ShipType_display (documented_ship_type code)).
Proof.
  intros H.
  assert (C : forallb (fun k => existsb (fun e => str_eqb (snd e) (ShipType_display (documented_ship_type (N.of_nat k))) &&
    (fst (fst e) <=? N.of_nat k) && (N.of_nat k <=? snd (fst e))) ship_type_names) (seq 0 256) = true) by (vm_compute; reflexivity).
  rewrite forallb_forall in C. specialize (C (N.to_nat code)). rewrite in_seq in C. specialize (C ltac:(lia)). rewrite N2Nat.id in C.
  apply existsb_exists in C as (((a & b) & t) & I & C). cbn [fst snd] in C.
  rewrite !andb_true_iff, !N.leb_le in C. destruct C as ((E & A) & B). apply str_eqb_eq in E. subst t. now exists a, b.
Qed.
Print Assumptions c80_documented_ship_texts.

(** Tankers and other ships (80 to 99) are shown as cargo ships. *)
Theorem c80_tanker_refuted ovf now s p tt fff bits d :
  one_fragment s tt fff (armor bits) -> message_type bits 5 ->
  80 <= be_value (window bits 232 8) <= 99 ->
  fst (parse_sentence ovf now s p) = Ok (PsVesselStaticData d) ->
  ~ ship_type_name (be_value (window bits 232 8)) (ShipType_display (vsd_ship_type d)).
Proof.
  intros Hs Ht Hc Hr. destruct (c80_voyage_texts_partial _ _ _ _ _ _ _ _ Hs Ht Hr) as (_ & _ & H). rewrite (H Hc).
  intros (a & b & I & R). unfold ship_type_names in I. cbn [In] in I.
  repeat (destruct I as [I|I]; [assert (Ea := f_equal (fun x => fst (fst x)) I); assert (Eb := f_equal (fun x => snd (fst x)) I);
    assert (Et := f_equal snd I); cbn [fst snd] in Ea, Eb, Et; subst a b; first [lia|discriminate Et]|]). contradiction.
Qed.
Print Assumptions c80_tanker_refuted.

(** A passenger ship in two parts; a cargo ship with hazardous goods and a tanker in voyage reports; a
    position report. *)
Example c80_example :
  (exists d, results true [(ex_now, ex_part_a); (ex_now, ex_part_b)] new_parser = [Ok PsIncomplete; Ok (PsVesselStaticData d)] /\
     ShipType_display (vsd_ship_type d) = lit "passenger" /\ ship_type_name 60 (lit "passenger") /\
     CargoType_display (vsd_cargo_type d) = lit "undefined" /\ AisClass_display (vsd_ais_type d) = lit "Class B") /\
  (exists d, fst (parse_sentence true ex_now (ex_voyage_sentence 71 5 15 14 0 122) new_parser) = Ok (PsVesselStaticData d) /\
     ShipType_display (vsd_ship_type d) = lit "cargo" /\ CargoType_display (vsd_cargo_type d) = lit "hazardous category A" /\
     cargo_name 71 (lit "hazardous category A")) /\
  (exists d, fst (parse_sentence true ex_now (ex_voyage_sentence 89 5 15 14 0 122) new_parser) = Ok (PsVesselStaticData d) /\
     ShipType_display (vsd_ship_type d) = lit "cargo" /\ ship_type_name 89 (lit "tanker")) /\
  (exists bits d, one_fragment (lit "!AIVDM,1,1,,A,15RTgt0PAso;90TKcjM8h6g208CQ,0") (lit "AI") (lit "VDM") (armor bits) /\
     message_type bits 1 /\
     fst (parse_sentence true ex_now (lit "!AIVDM,1,1,,A,15RTgt0PAso;90TKcjM8h6g208CQ,0") new_parser) = Ok (PsVesselDynamicData d) /\
     AisClass_display (vdd_ais_type d) = lit "Class A" /\
     option_map PositioningSystemMeta_display (vdd_positioning_system_meta d) = Some (lit "operative")).
Proof.
  split; [|split; [|split]].
  - eexists. split; [vm_compute; reflexivity|]. split; [reflexivity|]. split; [|split; reflexivity].
    exists 60, 69. split; [unfold ship_type_names; cbn [In]; tauto|lia].
  - eexists. split; [vm_compute; reflexivity|]. split; [reflexivity|]. split; [reflexivity|].
    apply cargo_class with 7 1; [reflexivity|cbn [In]; tauto|reflexivity].
  - eexists. split; [vm_compute; reflexivity|]. split; [reflexivity|].
    exists 80, 89. split; [unfold ship_type_names; cbn [In]; tauto|lia].
  - pose (bits := match parse_payload true (lit "15RTgt0PAso;90TKcjM8h6g208CQ") with Ok b => b | _ => [] end).
    exists bits. eexists. split.
    + replace (armor bits) with (lit "15RTgt0PAso;90TKcjM8h6g208CQ") by (vm_compute; reflexivity).
      apply (check_one_fragment _ _ _ (lit "A") _ [lit "0"]). apply check_vdm; [|reflexivity]. vm_compute. auto.
    + split; [vm_compute; reflexivity|]. split; [vm_compute; reflexivity|]. split; reflexivity.
Qed.
