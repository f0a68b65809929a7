(** C108: every field of an AIS report depends on its own bits only. *)
From stdpp Require Import gmap.
From Coq Require Import List NArith ZArith Bool String Lia.
From Verif Require Import Base Str F64 Chrono Types Util AisMod Vdm Gnss Parser
  SpecText SpecResult SpecAis SpecTime SpecMeasure SpecState SpecFields SpecComplete SpecLocal CompleteFacts
  StrFacts BitFacts VdmFacts LayoutFacts PropFront PropAis PropStatic.
Import ListNotations.
Open Scope N_scope.
Local Opaque pick_string pick_u64 pick_i64 pick_eta parse_f64 be_value.

(** ** From bits to data *)

Section Same.
  Context (a b : list bool) (places : list (nat * nat)) (S : agree_in a b places).

  Lemma same_window i n j m : In (j, m) places -> (j <= i)%nat -> (i + n <= j + m)%nat -> window a i n = window b i n.
  Proof.
    intros Hin H1 H2. unfold window. apply map_ext_in. intros k Hk. apply in_seq in Hk. apply (S j m); [exact Hin|lia].
  Qed.
  Lemma same_bits_at i n j m : In (j, m) places -> (j <= i)%nat -> (i + n <= j + m)%nat -> bits_at a i n = bits_at b i n.
  Proof. intros ? ? ?. unfold bits_at. now rewrite (same_window i n j m). Qed.
  Lemma same_signed_at i n j m : In (j, m) places -> (j <= i)%nat -> (i + n <= j + m)%nat -> signed_at a i n = signed_at b i n.
  Proof. intros ? ? ?. unfold signed_at. now rewrite (same_window i n j m). Qed.
  Lemma same_flag_at i : In (i, 1%nat) places -> flag_at a i = flag_at b i.
  Proof. intros H. unfold flag_at. apply (S i 1%nat); [exact H|lia]. Qed.
  Lemma same_text_at i n j m t u : In (j, m) places -> (j <= i)%nat -> (i + 6 * n <= j + m)%nat ->
    text_at a i n t -> text_at b i n u -> t = u.
  Proof.
    intros Hin H1 H2 A B. assert (A' : text_at b i n t).
    { unfold text_at in *. rewrite (map_ext_in _ (fun k => bits_at b (i + 6 * k) 6)) in A; [exact A|].
      intros k Hk. apply in_seq in Hk. apply (same_bits_at _ _ j m Hin); lia. }
    apply (@text_at_string ParseError) in A', B. rewrite A' in B. now injection B.
  Qed.
End Same.

Lemma message_report ovf now s tt fff p x r : completes s tt fff p x -> fst (parse_sentence ovf now s p) = Ok r ->
  r <> PsIncomplete -> bits_at (payload_bits x) 0 6 <> 24 ->
  exists st own, ais_report now (payload_bits x) st own r.
Proof.
  intros C H I N. destruct (completes_step ovf now _ _ _ _ _ C) as (q & _ & E). rewrite E in H. unfold decode_payload in H.
  destruct (parse_payload ovf x) as [bits|e|] eqn:P; cbn [fst] in H; [|congruence|discriminate].
  apply parse_payload_readable in P as [_ ->]. apply ais_message in H; [|exact N]. eauto.
Qed.

Ltac same_data S :=
  match type of S with agree_in ?a ?b ?places =>
    let inside := first [now left|right; now left] in
    repeat match goal with
    | |- context [bits_at a ?i ?n] =>
        first [rewrite (same_bits_at a b places S i n i n) by first [lia|inside]
              |match places with (?j, ?m) :: _ => rewrite (same_bits_at a b places S i n j m) by first [lia|inside] end]
    | |- context [signed_at a ?i ?n] => rewrite (same_signed_at a b places S i n i n) by first [lia|inside]
    | |- context [flag_at a ?i] => rewrite (same_flag_at a b places S i) by inside
    | A : text_at a ?i ?n ?t, B : text_at b ?i ?n ?u |- context [?t] =>
        assert (t = u) as <- by (refine (same_text_at a b places S i n i (6 * n)%nat t u _ _ _ A B); first [lia|inside]); clear A B
    end
  end.

Ltac report_fields := cbn [atn_aid_type atn_assigned_mode_flag atn_dimension_to_bow atn_dimension_to_port atn_dimension_to_starboard atn_dimension_to_stern
  atn_high_position_accuracy atn_latitude atn_longitude atn_mmsi atn_name atn_off_position_indicator
  atn_own_vessel atn_position_fix_type atn_raim_flag atn_regional atn_station atn_timestamp_seconds
  atn_virtual_aid_flag bam_dac bam_destination_mmsi bam_fid bam_mmsi bam_own_vessel
  bam_retransmit_flag bam_sequence_number bam_station bsr_high_position_accuracy bsr_latitude bsr_longitude
  bsr_mmsi bsr_own_vessel bsr_position_fix_type bsr_radio_status bsr_raim_flag bsr_station
  bsr_timestamp sar_altitude sar_assigned sar_cog sar_dte sar_high_position_accuracy
  sar_latitude sar_longitude sar_mmsi sar_own_vessel sar_radio_status sar_raim_flag
  sar_regional sar_sog_knots sar_station sar_timestamp_seconds udi_destination_mmsi udi_own_vessel
  udi_source_mmsi udi_station vdd_ais_type vdd_class_b_band_flag vdd_class_b_css_flag vdd_class_b_display
  vdd_class_b_dsc vdd_class_b_mode_flag vdd_class_b_msg22_flag vdd_class_b_unit_flag vdd_cog vdd_current_gnss_position
  vdd_heading_true vdd_high_position_accuracy vdd_latitude vdd_longitude vdd_mmsi vdd_nav_status
  vdd_own_vessel vdd_positioning_system_meta vdd_radio_status vdd_raim_flag vdd_rot vdd_rot_direction
  vdd_sog_knots vdd_special_manoeuvre vdd_station vdd_timestamp_seconds vsd_ais_type vsd_ais_version_indicator
  vsd_call_sign vsd_cargo_type vsd_destination vsd_dimension_to_bow vsd_dimension_to_port vsd_dimension_to_starboard
  vsd_dimension_to_stern vsd_draught10 vsd_equipment_model vsd_equipment_serial_number vsd_equipment_vendor_id vsd_eta
  vsd_imo_number vsd_mmsi vsd_mothership_mmsi vsd_name vsd_own_vessel vsd_position_fix_type
  vsd_ship_type].

Lemma local_data now a b st st' own own' r r' k :
  ais_report now a st own r -> ais_report now b st' own' r' -> bits_at a 0 6 = k -> bits_at b 0 6 = k ->
  data k r r' <> [] /\ forall places P, In (places, P) (data k r r') -> agree_in a b places -> P.
Proof.
  intros R R' K K'.
  destruct R as [X|X|? ? ? ? X|X|X|X|X|? ? X|X]; rewrite K in X;
    destruct R' as [Y|Y|? ? ? ? Y|Y|Y|Y|Y|? ? Y|Y]; rewrite K' in Y;
    try (exfalso; cbn [In] in *; lia).
  all: unfold data.
  all: try rewrite X.
  all: try change (18 =? 18) with true; try change (27 =? 18) with false; try change (27 =? 27) with true; cbv iota.
  all: try (assert (E1 : (k =? 18) = false) by (apply N.eqb_neq; cbn [In] in X; lia); rewrite E1; cbv iota;
            assert (E2 : (k =? 27) = false) by (apply N.eqb_neq; cbn [In] in X; lia); rewrite E2; cbv iota).
  all: split; [discriminate|].
  all: intros places P Hin S.
  all: repeat (destruct Hin as [[= <- <-]|Hin]; [solve [report_fields; same_data S; repeat split]|]).
  all: destruct Hin.
Qed.

(** ** C108 *)

(** Two messages of the same type: a datum of which all bits are the same is reported alike,
    whatever the other bits, the senders and what was received before. *)
Theorem c108_own_bits_partial ovf ovf' now s s' p p' tt tt' fff fff' x x' r r' k :
  completes s tt fff p x -> fst (parse_sentence ovf now s p) = Ok r -> r <> PsIncomplete ->
  completes s' tt' fff' p' x' -> fst (parse_sentence ovf' now s' p') = Ok r' -> r' <> PsIncomplete ->
  bits_at (payload_bits x) 0 6 = k -> bits_at (payload_bits x') 0 6 = k -> k <> 24 ->
  data k r r' <> [] /\
  forall places P, In (places, P) (data k r r') -> agree_in (payload_bits x) (payload_bits x') places -> P.
Proof.
  intros C H I C' H' I' K K' N.
  destruct (message_report _ _ _ _ _ _ _ _ C H I ltac:(congruence)) as (st & own & R).
  destruct (message_report _ _ _ _ _ _ _ _ C' H' I' ltac:(congruence)) as (st' & own' & R').
  eapply local_data; eassumption.
Qed.
Print Assumptions c108_own_bits_partial.

Ltac report_fields_in_all := cbn [atn_aid_type atn_assigned_mode_flag atn_dimension_to_bow atn_dimension_to_port atn_dimension_to_starboard atn_dimension_to_stern
  atn_high_position_accuracy atn_latitude atn_longitude atn_mmsi atn_name atn_off_position_indicator
  atn_own_vessel atn_position_fix_type atn_raim_flag atn_regional atn_station atn_timestamp_seconds
  atn_virtual_aid_flag bam_dac bam_destination_mmsi bam_fid bam_mmsi bam_own_vessel
  bam_retransmit_flag bam_sequence_number bam_station bsr_high_position_accuracy bsr_latitude bsr_longitude
  bsr_mmsi bsr_own_vessel bsr_position_fix_type bsr_radio_status bsr_raim_flag bsr_station
  bsr_timestamp sar_altitude sar_assigned sar_cog sar_dte sar_high_position_accuracy
  sar_latitude sar_longitude sar_mmsi sar_own_vessel sar_radio_status sar_raim_flag
  sar_regional sar_sog_knots sar_station sar_timestamp_seconds udi_destination_mmsi udi_own_vessel
  udi_source_mmsi udi_station vdd_ais_type vdd_class_b_band_flag vdd_class_b_css_flag vdd_class_b_display
  vdd_class_b_dsc vdd_class_b_mode_flag vdd_class_b_msg22_flag vdd_class_b_unit_flag vdd_cog vdd_current_gnss_position
  vdd_heading_true vdd_high_position_accuracy vdd_latitude vdd_longitude vdd_mmsi vdd_nav_status
  vdd_own_vessel vdd_positioning_system_meta vdd_radio_status vdd_raim_flag vdd_rot vdd_rot_direction
  vdd_sog_knots vdd_special_manoeuvre vdd_station vdd_timestamp_seconds vsd_ais_type vsd_ais_version_indicator
  vsd_call_sign vsd_cargo_type vsd_destination vsd_dimension_to_bow vsd_dimension_to_port vsd_dimension_to_starboard
  vsd_dimension_to_stern vsd_draught10 vsd_equipment_model vsd_equipment_serial_number vsd_equipment_vendor_id vsd_eta
  vsd_imo_number vsd_mmsi vsd_mothership_mmsi vsd_name vsd_own_vessel vsd_position_fix_type
  vsd_ship_type] in *.

(** The data are all there is in a report. *)
Theorem c108_all_data k r r' : data k r r' <> [] -> same_reception r r' ->
  Forall snd (data k r r') -> Forall snd (displaced k r r') -> r = r'.
Proof.
  intros D S A B. destruct r, r'; cbn [data] in D; try (exfalso; now apply D);
    unfold data, displaced in A, B; cbn [same_reception] in S.
  all: try (destruct (k =? 18); [|destruct (k =? 27)]).
  all: repeat match goal with H : Forall snd (_ :: _) |- _ => inversion H; clear H; subst end.
  all: repeat match goal with H : Forall snd (?f _ _) |- _ => unfold f in H end.
  all: repeat match goal with H : Forall snd (_ :: _) |- _ => apply List.Forall_cons_iff in H as [? H] end.
  all: cbn [snd] in *.
  all: match goal with |- _ ?x = _ ?y => destruct x, y end.
  all: unfold eta_5, off_position_21 in *; cbn [snd] in *.
  all: report_fields_in_all.
  all: repeat match goal with H : _ /\ _ |- _ => destruct H end; subst; reflexivity.
Qed.
Print Assumptions c108_all_data.

(** ** One wrong bit *)

Definition inside (k : nat) (place : nat * nat) : bool := Nat.leb (fst place) k && Nat.ltb k (fst place + snd place).
Definition meet (u v : nat * nat) : bool := Nat.ltb (fst u) (fst v + snd v) && Nat.ltb (fst v) (fst u + snd u).
Fixpoint apart (l : list (list (nat * nat))) : bool :=
  match l with
  | [] => true
  | w :: l' => forallb (fun w' => forallb (fun u => forallb (fun v => negb (meet u v)) w') w) l' && apart l'
  end.

Lemma inside_meet k u v : inside k u = true -> inside k v = true -> meet u v = true.
Proof.
  unfold inside, meet. rewrite !andb_true_iff, !Nat.leb_le, !Nat.ltb_lt. lia.
Qed.

Lemma only_one (l : list datum) k : apart (map fst l) = true ->
  exists j, forall i places P, nth_error l i = Some (places, P) -> i <> j -> existsb (inside k) places = false.
Proof.
  induction l as [|[w Q] l IH]; cbn [map apart fst]; intros A; [exists 0%nat; intros []; discriminate|].
  apply andb_true_iff in A as [A B]. destruct (existsb (inside k) w) eqn:E.
  - exists 0%nat. intros [|i] places P Hi Hn; [now destruct Hn|]. cbn in Hi.
    destruct (existsb (inside k) places) eqn:F; [|reflexivity]. exfalso.
    apply existsb_exists in E as (u & Hu & E), F as (v & Hv & F).
    rewrite forallb_forall in A. specialize (A places). rewrite forallb_forall in A.
    assert (M : In places (map fst l)) by (apply nth_error_In in Hi; now apply (in_map fst) in Hi).
    specialize (A M u Hu). rewrite forallb_forall in A. specialize (A v Hv).
    rewrite (inside_meet k u v E F) in A. discriminate.
  - destruct (IH B) as (j & H). exists (S j). intros [|i] places P Hi Hn.
    + cbn in Hi. injection Hi as <- <-. exact E.
    + cbn in Hi. apply (H i places P Hi). lia.
Qed.

Lemma data_apart k r r' : apart (map fst (data k r r')) = true.
Proof.
  destruct r, r'; try reflexivity. unfold data. destruct (k =? 18); [reflexivity|]. destruct (k =? 27); reflexivity.
Qed.

Lemma differ_agree k a b places : differ_at k a b -> existsb (inside k) places = false -> agree_in a b places.
Proof.
  intros [_ D] E i n q Hin Hq. apply D. intros ->. apply Bool.not_true_iff_false in E. apply E.
  apply existsb_exists. exists (i, n). split; [exact Hin|]. unfold inside. cbn [fst snd].
  apply andb_true_iff. rewrite Nat.leb_le, Nat.ltb_lt. exact Hq.
Qed.

(** One wrong bit (not of the message type) spoils at most one of these data. *)
Theorem c108_one_bit_partial ovf ovf' now s s' p p' tt tt' fff fff' x x' r r' k bit :
  completes s tt fff p x -> fst (parse_sentence ovf now s p) = Ok r -> r <> PsIncomplete ->
  completes s' tt' fff' p' x' -> fst (parse_sentence ovf' now s' p') = Ok r' -> r' <> PsIncomplete ->
  bits_at (payload_bits x) 0 6 = k -> k <> 24 ->
  differ_at bit (payload_bits x) (payload_bits x') -> (6 <= bit)%nat ->
  data k r r' <> [] /\
  exists j, forall i places P, nth_error (data k r r') i = Some (places, P) -> i <> j -> P.
Proof.
  intros C H I C' H' I' K N D B.
  assert (K' : bits_at (payload_bits x') 0 6 = k).
  { rewrite <- K. symmetry. apply (same_bits_at _ _ [(0, 6)%nat]) with (j := 0%nat) (m := 6%nat); try lia; [|now left].
    intros i n q [[= <- <-]|[]] Hq. apply D. lia. }
  destruct (c108_own_bits_partial _ _ _ _ _ _ _ _ _ _ _ _ _ _ _ _ C H I C' H' I' K K' N) as [E L].
  split; [exact E|]. destruct (only_one _ bit (data_apart k r r')) as (j & O). exists j.
  intros i places P Hi Hn. apply (L places P); [now apply nth_error_In in Hi|].
  apply (differ_agree bit); [exact D|]. now apply (O i places P).
Qed.
Print Assumptions c108_one_bit_partial.

(** ** The data that are read elsewhere *)

(** Type 5: the seconds of the ETA, which the message does not have, are the first six bits of the draught. *)
Theorem c108_eta_refuted ovf ovf' now s s' p p' tt tt' fff fff' x x' v v' :
  completes s tt fff p x -> fst (parse_sentence ovf now s p) = Ok (PsVesselStaticData v) ->
  completes s' tt' fff' p' x' -> fst (parse_sentence ovf' now s' p') = Ok (PsVesselStaticData v') ->
  bits_at (payload_bits x) 0 6 = 5 -> bits_at (payload_bits x') 0 6 = 5 ->
  agree_in (payload_bits x) (payload_bits x') [(274, 20)]%nat ->
  bits_at (payload_bits x) 283 5 < 24 -> bits_at (payload_bits x) 288 6 < 60 ->
  bits_at (payload_bits x) 294 6 < 60 -> bits_at (payload_bits x') 294 6 < 60 ->
  bits_at (payload_bits x) 294 6 <> bits_at (payload_bits x') 294 6 ->
  vsd_eta v <> vsd_eta v'.
Proof.
  intros C H C' H' K K' A Hh Hm L L' D E.
  destruct (message_report _ _ _ _ _ _ _ _ C H ltac:(discriminate) ltac:(rewrite K; discriminate)) as (st & own & R).
  destruct (message_report _ _ _ _ _ _ _ _ C' H' ltac:(discriminate) ltac:(rewrite K'; discriminate)) as (st' & own' & R').
  rewrite (same_bits_at _ _ _ A 283 5 274 20) in Hh by first [lia|now left].
  rewrite (same_bits_at _ _ _ A 288 6 274 20) in Hm by first [lia|now left].
  inversion R as [| |? ? e ? _ _ _ _ T| | | | | |]; subst. inversion R' as [| |? ? e' ? _ _ _ _ T'| | | | | |]; subst.
  cbn [vsd_eta] in E. subst e'.
  rewrite (same_bits_at _ _ _ A 283 5 274 20), (same_bits_at _ _ _ A 288 6 274 20) in T by first [lia|now left].
  destruct T as [? ? T ? ?|? ? ? ? q _ _ _ T _ _ _]; [lia|].
  inversion T' as [|? ? ? ? q' _ _ _ U _ _ _ W]; subst.
  assert (Q : q = bits_at (payload_bits x) 294 6).
  { destruct T as [T|[T|(_ & _ & _ & _ & T)]]; [lia|lia|]. rewrite T.
    now destruct (N.eqb_spec (bits_at (payload_bits x) 294 6) 60); [lia|]. }
  destruct U as [U|[U|(_ & _ & _ & _ & U)]]; [lia|lia|].
  destruct (N.eqb_spec (bits_at (payload_bits x') 294 6) 60); [lia|]. congruence.
Qed.
Print Assumptions c108_eta_refuted.

(** The other displaced data: in every message the wrong value of one bit of another datum changes them, while their
    own bits are the same. *)
Theorem c108_displaced_refuted ovf ovf' now s s' p p' tt tt' fff fff' x x' r r' k bit :
  completes s tt fff p x -> fst (parse_sentence ovf now s p) = Ok r -> r <> PsIncomplete ->
  completes s' tt' fff' p' x' -> fst (parse_sentence ovf' now s' p') = Ok r' -> r' <> PsIncomplete ->
  bits_at (payload_bits x) 0 6 = k -> bits_at (payload_bits x') 0 6 = k ->
  k = 18 /\ (141 <= bit <= 145)%nat \/ k = 21 /\ bit = 243%nat \/ k = 27 /\ bit = 62%nat ->
  differ_at bit (payload_bits x) (payload_bits x') ->
  exists places P, In (places, P) (displaced k r r') /\ agree_in (payload_bits x) (payload_bits x') places /\ ~ P.
Proof.
  intros C H I C' H' I' K K' B D.
  assert (N : k <> 24) by lia.
  destruct (message_report _ _ _ _ _ _ _ _ C H I ltac:(congruence)) as (st & own & R).
  destruct (message_report _ _ _ _ _ _ _ _ C' H' I' ltac:(congruence)) as (st' & own' & R').
  assert (F : flag_at (payload_bits x) bit <> flag_at (payload_bits x') bit) by exact (proj1 D).
  assert (L : forall i n, existsb (inside bit) [(i, n)] = false -> agree_in (payload_bits x) (payload_bits x') [(i, n)])
    by (intros i n; now apply differ_agree).
  clear D.
  destruct R as [X|X|? ? ? ? X|X|X|X|X|? ? X|X]; rewrite K in X;
    destruct R' as [Y|Y|? ? ? ? Y|Y|Y|Y|Y|? ? Y|Y]; rewrite K' in Y;
    try (exfalso; cbn [In] in *; lia).
  - rewrite X in B |- *. unfold displaced. change (18 =? 18) with true. cbv iota.
    assert (E : bit = 141%nat \/ bit = 142%nat \/ bit = 143%nat \/ bit = 144%nat \/ bit = 145%nat) by lia.
    destruct E as [-> |[-> |[-> |[-> | ->]]]].
    + exists [(142, 1)]%nat. eexists. split; [now left|]. split; [now apply L|]. report_fields. congruence.
    + exists [(143, 1)]%nat. eexists. split; [right; now left|]. split; [now apply L|]. report_fields. congruence.
    + exists [(144, 1)]%nat. eexists. split; [do 2 right; now left|]. split; [now apply L|]. report_fields. congruence.
    + exists [(145, 1)]%nat. eexists. split; [do 3 right; now left|]. split; [now apply L|]. report_fields. congruence.
    + exists [(146, 1)]%nat. eexists. split; [do 4 right; now left|]. split; [now apply L|]. report_fields. congruence.
  - rewrite X in B |- *. assert (bit = 243%nat) as -> by lia.
    exists [(259, 1)]%nat. eexists. split; [now left|]. split; [now apply L|]. report_fields. congruence.
  - rewrite X in B |- *. unfold displaced. change (27 =? 18) with false. change (27 =? 27) with true. cbv iota.
    assert (bit = 62%nat) as -> by lia.
    exists [(94, 1)]%nat. eexists. split; [do 4 right; now left|]. split; [now apply L|]. report_fields.
    destruct (flag_at (payload_bits x) 62), (flag_at (payload_bits x') 62); cbn; congruence.
Qed.
Print Assumptions c108_displaced_refuted.

Lemma differ_check k a b : List.length a = List.length b ->
  forallb (fun i => (i =? k)%nat || Bool.eqb (nth i a false) (nth i b false)) (seq 0 (List.length a)) = true ->
  nth k a false <> nth k b false -> differ_at k a b.
Proof.
  intros L F D. split; [exact D|]. intros i Hi. destruct (Nat.lt_ge_cases i (List.length a)) as [Q|Q].
  - rewrite forallb_forall in F. specialize (F i ltac:(apply in_seq; lia)). apply orb_true_iff in F as [F|F].
    + apply Nat.eqb_eq in F. congruence.
    + now apply Bool.eqb_prop in F.
  - rewrite !nth_overflow by lia. reflexivity.
Qed.

(** Two position reports that differ in one bit of the heading, two of class B equipment that differ in the bit before
    the display flag, and two voyage reports that differ in one bit of the draught. *)
Definition ex_report (x : str) : str := lit "!AIVDM,1,1,,A," ++ x ++ lit ",0".

Ltac example_message := apply complete_one; apply (check_one_fragment _ _ _ (lit "A") _ [lit "0"]);
  apply check_vdm; [vm_compute; auto|reflexivity].
Ltac example_differ := apply differ_check; [reflexivity|vm_compute; reflexivity|vm_compute; discriminate].

Example c108_example :
  (let x := lit "15RTgt0PAso;90TKcjM8h6g208CQ" in let x' := lit "15RTgt0PAso;90TKcjM8h7g208CQ" in
   completes (ex_report x) (lit "AI") (lit "VDM") new_parser x /\
   completes (ex_report x') (lit "AI") (lit "VDM") new_parser x' /\
   differ_at 131 (payload_bits x) (payload_bits x') /\
   exists d d', fst (parse_sentence true ex_now (ex_report x) new_parser) = Ok (PsVesselDynamicData d) /\
     fst (parse_sentence true ex_now (ex_report x') new_parser) = Ok (PsVesselDynamicData d') /\
     vdd_heading_true d <> vdd_heading_true d' /\ vdd_cog d = vdd_cog d').
Proof.
  cbv zeta. split; [example_message|]. split; [example_message|]. split; [example_differ|].
  eexists. eexists. split; [vm_compute; reflexivity|]. split; [vm_compute; reflexivity|]. split; [discriminate|reflexivity].
Qed.

Example c108_displaced_example :
  (let x := lit "B6CdCm0t3`tba35f@V9faHi7kP06" in let x' := lit "B6CdCm0t3`tba35f@V9faHi3kP06" in
   completes (ex_report x) (lit "AI") (lit "VDM") new_parser x /\
   completes (ex_report x') (lit "AI") (lit "VDM") new_parser x' /\
   bits_at (payload_bits x) 0 6 = 18 /\ differ_at 141 (payload_bits x) (payload_bits x') /\
   exists d d', fst (parse_sentence true ex_now (ex_report x) new_parser) = Ok (PsVesselDynamicData d) /\
     fst (parse_sentence true ex_now (ex_report x') new_parser) = Ok (PsVesselDynamicData d') /\
     vdd_class_b_display d <> vdd_class_b_display d').
Proof.
  cbv zeta. split; [example_message|]. split; [example_message|]. split; [reflexivity|]. split; [example_differ|].
  eexists. eexists. split; [vm_compute; reflexivity|]. split; [vm_compute; reflexivity|discriminate].
Qed.

Example c108_eta_example :
  (let x := lit "55?MbV02;H;s<HtKR20EHE:0@T4@Dn2222222216L961O5Gf0NSQEp6ClRp888888888880" in
   let x' := lit "55?MbV02;H;s<HtKR20EHE:0@T4@Dn2222222216L961O5Gf0OSQEp6ClRp888888888880" in
   completes (ex_report x) (lit "AI") (lit "VDM") new_parser x /\
   completes (ex_report x') (lit "AI") (lit "VDM") new_parser x' /\
   bits_at (payload_bits x) 0 6 = 5 /\ differ_at 299 (payload_bits x) (payload_bits x') /\
   bits_at (payload_bits x) 283 5 = 14 /\ bits_at (payload_bits x) 288 6 = 0 /\
   exists d d', fst (parse_sentence true ex_now (ex_report x) new_parser) = Ok (PsVesselStaticData d) /\
     fst (parse_sentence true ex_now (ex_report x') new_parser) = Ok (PsVesselStaticData d') /\
     vsd_eta d <> vsd_eta d').
Proof.
  cbv zeta. split; [example_message|]. split; [example_message|]. split; [reflexivity|]. split; [example_differ|].
  split; [reflexivity|]. split; [reflexivity|].
  eexists. eexists. split; [vm_compute; reflexivity|]. split; [vm_compute; reflexivity|discriminate].
Qed.
