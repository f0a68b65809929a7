(** C108: wrong and lost characters of an AIS payload. *)
From stdpp Require Import gmap.
From Coq Require Import List NArith ZArith Bool String Lia.
From Verif Require Import Base Str F64 Chrono Types Util AisMod Vdm Gnss Parser
  SpecText SpecResult SpecAis SpecTime SpecMeasure SpecState SpecFields SpecComplete SpecMerge SpecPanic SpecLocal SpecSpot CompleteFacts
  StrFacts FrontFacts RunFacts BitFacts VdmFacts LayoutFacts PropFront PropAis PropStatic PropComplete PropLocal.
Import ListNotations.
Open Scope N_scope.

Lemma payload_bits_app a b : payload_bits (a ++ b) = payload_bits a ++ payload_bits b.
Proof. apply flat_map_app. Qed.

Lemma payload_bits_length a : List.length (payload_bits a) = (6 * List.length a)%nat.
Proof.
  induction a as [|c a IH]; [reflexivity|]. unfold payload_bits in *. cbn [flat_map List.length].
  rewrite app_length, IH. change (List.length (be_bits 6 (char_value c))) with 6%nat. lia.
Qed.

Lemma same_start a b b' : a <> [] -> bits_at (payload_bits (a ++ b)) 0 6 = bits_at (payload_bits (a ++ b')) 0 6.
Proof.
  intros Ha. apply (same_bits_at _ _ [(0, 6)%nat]) with (j := 0%nat) (m := 6%nat); try lia; [|now left].
  intros i n q [[= <- <-]|[]] Hq. rewrite !payload_bits_app.
  assert (L : (6 <= List.length (payload_bits a))%nat)
    by (rewrite payload_bits_length; destruct a; [easy|cbn [List.length]; lia]).
  rewrite !app_nth1 by lia. reflexivity.
Qed.

(** Payloads with a common start, however different and however long the rest (characters lost or inserted, another
    second half, a cut message): the data that lie in the common characters are reported alike. *)
Theorem c108_common_start_partial ovf ovf' now s s' p p' tt tt' fff fff' a b b' r r' k :
  completes s tt fff p (a ++ b) -> fst (parse_sentence ovf now s p) = Ok r -> r <> PsIncomplete ->
  completes s' tt' fff' p' (a ++ b') -> fst (parse_sentence ovf' now s' p') = Ok r' -> r' <> PsIncomplete ->
  a <> [] -> bits_at (payload_bits (a ++ b)) 0 6 = k -> k <> 24 ->
  data k r r' <> [] /\
  forall places P, In (places, P) (data k r r') ->
    (forall i n, In (i, n) places -> (i + n <= 6 * List.length a)%nat) -> P.
Proof.
  intros C H I C' H' I' Ha K N.
  assert (K' : bits_at (payload_bits (a ++ b')) 0 6 = k) by (rewrite <- K; symmetry; now apply same_start).
  destruct (c108_own_bits_partial _ _ _ _ _ _ _ _ _ _ _ _ _ _ _ _ C H I C' H' I' K K' N) as [E L].
  split; [exact E|]. intros places P Hin Hp. apply (L places P Hin).
  intros i n q Hi Hq. specialize (Hp i n Hi). rewrite <- payload_bits_length in Hp.
  rewrite !payload_bits_app, !app_nth1 by lia. reflexivity.
Qed.
Print Assumptions c108_common_start_partial.

(** Payloads that differ in one stretch of equally many characters (a single wrong character, say): the data that do not
    touch the six bits of any of these characters are reported alike. *)
Theorem c108_wrong_characters_partial ovf ovf' now s s' p p' tt tt' fff fff' a m m' b r r' k :
  completes s tt fff p (a ++ m ++ b) -> fst (parse_sentence ovf now s p) = Ok r -> r <> PsIncomplete ->
  completes s' tt' fff' p' (a ++ m' ++ b) -> fst (parse_sentence ovf' now s' p') = Ok r' -> r' <> PsIncomplete ->
  a <> [] -> List.length m = List.length m' -> bits_at (payload_bits (a ++ m ++ b)) 0 6 = k -> k <> 24 ->
  data k r r' <> [] /\
  forall places P, In (places, P) (data k r r') ->
    (forall i n, In (i, n) places ->
       (i + n <= 6 * List.length a \/ 6 * (List.length a + List.length m) <= i)%nat) -> P.
Proof.
  intros C H I C' H' I' Ha Hm K N.
  assert (K' : bits_at (payload_bits (a ++ m' ++ b)) 0 6 = k) by (rewrite <- K; symmetry; now apply same_start).
  destruct (c108_own_bits_partial _ _ _ _ _ _ _ _ _ _ _ _ _ _ _ _ C H I C' H' I' K K' N) as [E L].
  split; [exact E|]. intros places P Hin Hp. apply (L places P Hin).
  intros i n q Hi Hq. specialize (Hp i n Hi).
  pose proof (payload_bits_length a) as La. pose proof (payload_bits_length m) as Lm. pose proof (payload_bits_length m') as Lm'.
  rewrite !payload_bits_app. destruct Hp as [Hp|Hp].
  - rewrite !app_nth1 by lia. reflexivity.
  - rewrite !(app_nth2 (payload_bits a)) by lia. rewrite !app_nth2 by lia. f_equal. lia.
Qed.
Print Assumptions c108_wrong_characters_partial.

(** A character outside a datum: the heading is spoilt, the position and the rest are not; and a report cut after 20
    characters, which keeps the position. *)
Example c108_characters_example :
  exists d d' e,
    fst (parse_sentence true ex_now (ex_report (lit "15RTgt0PAso;90TKcjM8h6g208CQ")) new_parser) = Ok (PsVesselDynamicData d) /\
    fst (parse_sentence true ex_now (ex_report (lit "15RTgt0PAso;90TKcjM8hSg208CQ")) new_parser) = Ok (PsVesselDynamicData d') /\
    fst (parse_sentence true ex_now (ex_report (lit "15RTgt0PAso;90TKcjM8")) new_parser) = Ok (PsVesselDynamicData e) /\
    vdd_heading_true d <> vdd_heading_true d' /\ vdd_latitude d = vdd_latitude d' /\ vdd_radio_status d = vdd_radio_status d' /\
    vdd_latitude d = vdd_latitude e /\ vdd_heading_true d <> vdd_heading_true e.
Proof.
  set (s := ex_report (lit "15RTgt0PAso;90TKcjM8h6g208CQ")). set (s' := ex_report (lit "15RTgt0PAso;90TKcjM8hSg208CQ")).
  set (u := ex_report (lit "15RTgt0PAso;90TKcjM8")).
  assert (C : completes s (lit "AI") (lit "VDM") new_parser (lit "15RTgt0PAso;90TKcjM8h" ++ lit "6" ++ lit "g208CQ")) by example_message.
  assert (C' : completes s' (lit "AI") (lit "VDM") new_parser (lit "15RTgt0PAso;90TKcjM8h" ++ lit "S" ++ lit "g208CQ")) by example_message.
  assert (D : completes s (lit "AI") (lit "VDM") new_parser (lit "15RTgt0PAso;90TKcjM8" ++ lit "h6g208CQ")) by example_message.
  assert (D' : completes u (lit "AI") (lit "VDM") new_parser (lit "15RTgt0PAso;90TKcjM8" ++ [])) by example_message.
  assert (R : exists d d' e, fst (parse_sentence true ex_now s new_parser) = Ok (PsVesselDynamicData d) /\
    fst (parse_sentence true ex_now s' new_parser) = Ok (PsVesselDynamicData d') /\
    fst (parse_sentence true ex_now u new_parser) = Ok (PsVesselDynamicData e) /\
    vdd_heading_true d <> vdd_heading_true d' /\ vdd_heading_true d <> vdd_heading_true e).
  { do 3 eexists. split; [vm_compute; reflexivity|]. split; [vm_compute; reflexivity|]. split; [vm_compute; reflexivity|].
    split; discriminate. }
  destruct R as (d & d' & e & H & H' & U & X & Y). exists d, d', e.
  destruct (c108_wrong_characters_partial _ _ _ _ _ _ _ _ _ _ _ _ _ _ _ _ _ 1 C H ltac:(discriminate) C' H' ltac:(discriminate)
    ltac:(discriminate) eq_refl eq_refl ltac:(discriminate)) as [_ A].
  destruct (c108_common_start_partial _ _ _ _ _ _ _ _ _ _ _ _ _ _ _ _ 1 D H ltac:(discriminate) D' U ltac:(discriminate)
    ltac:(discriminate) eq_refl ltac:(discriminate)) as [_ B].
  split; [exact H|]. split; [exact H'|]. split; [exact U|]. split; [exact X|].
  split; [apply (A [(89, 27)%nat]); [do 6 right; now left|intros i n [[= <- <-]|[]]; cbn; lia]|].
  split; [apply (A [(149, 19)%nat]); [do 12 right; now left|intros i n [[= <- <-]|[]]; cbn; lia]|].
  split; [apply (B [(89, 27)%nat]); [do 6 right; now left|intros i n [[= <- <-]|[]]; cbn; lia]|]. exact Y.
Qed.

(** ** Static reports of class B equipment *)

Lemma part_report ovf now s tt fff p x d :
  reachable ovf p -> clock now -> (0 <= dt_year now)%Z -> completes s tt fff p x -> bits_at (payload_bits x) 0 6 = 24 ->
  fst (parse_sentence ovf now s p) = Ok (PsVesselStaticData d) ->
  exists own v w, part_says (payload_bits x) own v /\ stored p (Vessel (vsd_mmsi v)) = Some (inr w) /\ merged v w d.
Proof.
  intros Hr Hc Hy C K H. apply (c100_answer ovf now s p _ Hr Hc Hy) in H. cbn [answer] in H.
  inversion H as [? ? ? ? ? _ _ G| |? ? y ? ? C' _ _ G|? ? y v w ? C' _ G W M]; subst.
  - inversion G.
  - destruct (completes_unique _ _ _ _ _ _ _ _ C C') as (_ & _ & <-). inversion G; subst; lia.
  - destruct (completes_unique _ _ _ _ _ _ _ _ C C') as (_ & _ & <-). exists (str_eqb fff0 (lit "VDO")), v, w. auto.
Qed.

Lemma part_kept ovf now s tt fff p x w m :
  completes s tt fff p x -> bits_at (payload_bits x) 0 6 = 24 -> bits_at (payload_bits x) 8 30 = m ->
  stored p (Vessel m) = None ->
  stored (snd (parse_sentence ovf now s p)) (Vessel m) = Some (inr w) ->
  exists own, part_says (payload_bits x) own w.
Proof.
  intros C K M N H. apply (c100_memory ovf now s p (Vessel m) (Some (inr w))) in H as [H|[_ H]]; [|congruence].
  inversion H as [| | | |? ? y v C' _ S _|]; subst.
  destruct (completes_unique _ _ _ _ _ _ _ _ C C') as (_ & _ & <-). eauto.
Qed.

Lemma made_of_parts ovf a b d : made_of ovf a b d ->
  exists own own' v w, part_says (payload_bits a) own v /\ part_says (payload_bits b) own' w /\
    vsd_mmsi v = vsd_mmsi w /\ (merged v w d \/ merged w v d) /\
    bits_at (payload_bits a) 38 2 = 0 /\ bits_at (payload_bits b) 38 2 = 1.
Proof.
  intros (p & now1 & s1 & now2 & s2 & tt1 & fff1 & tt2 & fff2 & x & y & R & C1 & Y1 & C2 & Y2 & X & Y & O & A1 & A2 & B1 & B2 & E & N & H).
  assert (R' : reachable ovf (snd (parse_sentence ovf now1 s1 p))) by (now apply reachable_step).
  assert (P : forall u v' own, part_says (payload_bits u) own v' -> vsd_mmsi v' = bits_at (payload_bits u) 8 30)
    by (intros u v' own S; destruct S; reflexivity).
  destruct O as [[-> ->]|[-> ->]].
  - destruct (part_report _ _ _ _ _ _ _ _ R' C2 Y2 Y B1 H) as (own' & w & v & S' & K & M).
    rewrite (P _ _ _ S'), <- E in K.
    destruct (part_kept _ _ _ _ _ _ _ _ _ X A1 eq_refl N K) as (own & S).
    exists own, own', v, w. repeat (split; [eassumption|]). rewrite (P _ _ _ S'), (P _ _ _ S). split; [exact E|]. auto.
  - destruct (part_report _ _ _ _ _ _ _ _ R' C2 Y2 Y A1 H) as (own & v & w & S & K & M).
    rewrite (P _ _ _ S) in K.
    destruct (part_kept _ _ _ _ _ _ _ _ _ X B1 (eq_sym E) N K) as (own' & S').
    exists own, own', v, w. repeat (split; [eassumption|]). rewrite (P _ _ _ S'), (P _ _ _ S). split; [exact E|]. auto.
Qed.

Lemma from_b {A} (f : VesselStaticData -> option A) v w d :
  prefers f v w d \/ prefers f w v d -> f v = None -> f d = f w.
Proof.
  unfold prefers. intros [[_ H]|[H1 H2]] E; [auto|]. destruct (f w) as [x|]; [now apply H1|]. rewrite H2 by reflexivity. exact E.
Qed.

Lemma ship_of_b v w d : merged v w d \/ merged w v d -> vsd_ship_type v = ShNotAvailable -> vsd_ship_type d = vsd_ship_type w.
Proof.
  intros H E. destruct H as [H|H]; unfold merged in H; destruct H as (_ & _ & _ & _ & _ & _ & _ & _ & _ & _ & _ & _ & _ & _ & _ & _ & _ & _ & _ & _ & S1 & S2 & _).
  - auto.
  - destruct (vsd_ship_type w) eqn:W; first [rewrite S1; congruence|rewrite S2; congruence].
Qed.

Lemma cargo_of_b v w d : merged v w d \/ merged w v d -> vsd_cargo_type v = CaUndefined -> vsd_cargo_type d = vsd_cargo_type w.
Proof.
  intros H E. destruct H as [H|H]; unfold merged in H; destruct H as (_ & _ & _ & _ & _ & _ & _ & _ & _ & _ & _ & _ & _ & _ & _ & _ & _ & _ & _ & _ & _ & _ & S1 & S2).
  - auto.
  - destruct (vsd_cargo_type w) eqn:W; first [rewrite S1; congruence|rewrite S2; congruence].
Qed.

(** [v] says nothing but the name: everything else is what [w] says. *)
Lemma b_fields v w d : merged v w d \/ merged w v d ->
  vsd_imo_number v = None ->
  vsd_call_sign v = None ->
  vsd_equipment_vendor_id v = None ->
  vsd_equipment_model v = None ->
  vsd_equipment_serial_number v = None ->
  vsd_dimension_to_bow v = None ->
  vsd_dimension_to_stern v = None ->
  vsd_dimension_to_port v = None ->
  vsd_dimension_to_starboard v = None ->
  vsd_position_fix_type v = None ->
  vsd_eta v = None ->
  vsd_draught10 v = None ->
  vsd_destination v = None ->
  vsd_mothership_mmsi v = None ->
  vsd_ship_type v = ShNotAvailable -> vsd_cargo_type v = CaUndefined -> vsd_ais_version_indicator v = vsd_ais_version_indicator w ->
  vsd_mmsi d = vsd_mmsi w /\
  vsd_ais_version_indicator d = vsd_ais_version_indicator w /\
  vsd_ship_type d = vsd_ship_type w /\
  vsd_cargo_type d = vsd_cargo_type w /\
  vsd_imo_number d = vsd_imo_number w /\
  vsd_call_sign d = vsd_call_sign w /\
  vsd_equipment_vendor_id d = vsd_equipment_vendor_id w /\
  vsd_equipment_model d = vsd_equipment_model w /\
  vsd_equipment_serial_number d = vsd_equipment_serial_number w /\
  vsd_dimension_to_bow d = vsd_dimension_to_bow w /\
  vsd_dimension_to_stern d = vsd_dimension_to_stern w /\
  vsd_dimension_to_port d = vsd_dimension_to_port w /\
  vsd_dimension_to_starboard d = vsd_dimension_to_starboard w /\
  vsd_position_fix_type d = vsd_position_fix_type w /\
  vsd_eta d = vsd_eta w /\
  vsd_draught10 d = vsd_draught10 w /\
  vsd_destination d = vsd_destination w /\
  vsd_mothership_mmsi d = vsd_mothership_mmsi w /\
  vsd_ais_type d = AisClassB.
Proof.
  intros M N0 N1 N2 N3 N4 N5 N6 N7 N8 N9 N10 N11 N12 N13 Sh Ca Ve.
  pose proof (ship_of_b v w d M Sh) as Sh'. pose proof (cargo_of_b v w d M Ca) as Ca'.
  assert (G : vsd_mmsi d = vsd_mmsi w /\ vsd_ais_version_indicator d = vsd_ais_version_indicator w /\ vsd_ais_type d = AisClassB).
  { destruct M as [(M1 & M2 & M3 & _ & M4 & _)|(M1 & M2 & M3 & _ & M4 & _)]; repeat split; congruence. }
  destruct G as (G1 & G2 & G3).
  split; [exact G1|]. split; [exact G2|]. split; [exact Sh'|]. split; [exact Ca'|]. clear Sh Ca Sh' Ca' G1 G2.
  destruct M as [(_ & _ & _ & _ & _ & Q0 & Q1 & _ & Q2 & Q3 & Q4 & Q5 & Q6 & Q7 & Q8 & Q9 & Q10 & Q11 & Q12 & Q13 & _)|(_ & _ & _ & _ & _ & Q0 & Q1 & _ & Q2 & Q3 & Q4 & Q5 & Q6 & Q7 & Q8 & Q9 & Q10 & Q11 & Q12 & Q13 & _)].
  - split; [exact (from_b _ v w d (or_introl Q0) N0)|]. split; [exact (from_b _ v w d (or_introl Q1) N1)|]. split; [exact (from_b _ v w d (or_introl Q2) N2)|]. split; [exact (from_b _ v w d (or_introl Q3) N3)|]. split; [exact (from_b _ v w d (or_introl Q4) N4)|]. split; [exact (from_b _ v w d (or_introl Q5) N5)|]. split; [exact (from_b _ v w d (or_introl Q6) N6)|]. split; [exact (from_b _ v w d (or_introl Q7) N7)|]. split; [exact (from_b _ v w d (or_introl Q8) N8)|]. split; [exact (from_b _ v w d (or_introl Q9) N9)|]. split; [exact (from_b _ v w d (or_introl Q10) N10)|]. split; [exact (from_b _ v w d (or_introl Q11) N11)|]. split; [exact (from_b _ v w d (or_introl Q12) N12)|]. split; [exact (from_b _ v w d (or_introl Q13) N13)|]. exact G3.
  - split; [exact (from_b _ v w d (or_intror Q0) N0)|]. split; [exact (from_b _ v w d (or_intror Q1) N1)|]. split; [exact (from_b _ v w d (or_intror Q2) N2)|]. split; [exact (from_b _ v w d (or_intror Q3) N3)|]. split; [exact (from_b _ v w d (or_intror Q4) N4)|]. split; [exact (from_b _ v w d (or_intror Q5) N5)|]. split; [exact (from_b _ v w d (or_intror Q6) N6)|]. split; [exact (from_b _ v w d (or_intror Q7) N7)|]. split; [exact (from_b _ v w d (or_intror Q8) N8)|]. split; [exact (from_b _ v w d (or_intror Q9) N9)|]. split; [exact (from_b _ v w d (or_intror Q10) N10)|]. split; [exact (from_b _ v w d (or_intror Q11) N11)|]. split; [exact (from_b _ v w d (or_intror Q12) N12)|]. split; [exact (from_b _ v w d (or_intror Q13) N13)|]. exact G3.
Qed.

Lemma b_data ovf a b d : made_of ovf a b d ->
  exists own w, part_says (payload_bits b) own w /\ bits_at (payload_bits b) 38 2 = 1 /\
    forall d' w', data_24 d d' = data_24 w d' /\ data_24 w' d = data_24 w' w.
Proof.
  intros H. destruct (made_of_parts _ _ _ _ H) as (o1 & o2 & v & w & Sv & Sw & E & M & A & B).
  exists o2, w. split; [exact Sw|]. split; [exact B|].
  assert (G : vsd_ais_type w = AisClassB) by (destruct Sw; reflexivity).
  assert (W : vsd_ais_version_indicator w = 0) by (destruct Sw; reflexivity).
  destruct Sv as [n X1 X2 X3|]; [|congruence].
  destruct (b_fields _ w d M eq_refl eq_refl eq_refl eq_refl eq_refl eq_refl eq_refl eq_refl eq_refl eq_refl eq_refl eq_refl eq_refl eq_refl
    eq_refl eq_refl (eq_sym W)) as (E1 & E2 & E3 & E4 & E5 & E6 & E7 & E8 & E9 & E10 & E11 & E12 & E13 & E14 & E15 & E16 & E17 & E18 & E19).
  intros d' w'. unfold data_24. rewrite E1, E2, E3, E4, E5, E6, E7, E8, E9, E10, E11, E12, E13, E14, E15, E16, E17, E18, E19, G.
  split; exact eq_refl.
Qed.

(** Reports made of two parts: the data of part B depend on their bits of part B only. *)
Theorem c108_static_bits_partial ovf ovf' a b a' b' d d' :
  made_of ovf a b d -> made_of ovf' a' b' d' ->
  forall places P, In (places, P) (data_24 d d') -> agree_in (payload_bits b) (payload_bits b') places -> P.
Proof.
  intros H H'. destruct (b_data _ _ _ _ H) as (o & w & S & B & D). destruct (b_data _ _ _ _ H') as (o' & w' & S' & B' & D').
  intros places P Hin Ag. rewrite (proj1 (D d' w')), (proj2 (D' d w)) in Hin. clear D D' H H'.
  destruct S as [|vendor call_sign Y1 Y2 Y3 Y4]; [congruence|]. destruct S' as [|vendor' call_sign' Y1' Y2' Y3' Y4']; [congruence|].
  unfold data_24 in Hin.
  cbn [vsd_mmsi vsd_ais_type vsd_ais_version_indicator vsd_imo_number vsd_call_sign vsd_ship_type vsd_cargo_type vsd_equipment_vendor_id
    vsd_equipment_model vsd_equipment_serial_number vsd_dimension_to_bow vsd_dimension_to_stern vsd_dimension_to_port
    vsd_dimension_to_starboard vsd_position_fix_type vsd_eta vsd_draught10 vsd_destination vsd_mothership_mmsi] in Hin.
  cbn [In] in Hin. repeat destruct Hin as [Hin|Hin]; try contradiction; injection Hin as <- <-.
  - apply (same_bits_at _ _ _ Ag 8 30 8 30); [now left|lia|lia].
  - rewrite (same_bits_at _ _ _ Ag 40 8 40 8) by first [lia|now left]. auto.
  - f_equal. apply (same_text_at _ _ _ Ag 48 3 48 18 vendor vendor'); [now left|lia|lia|assumption|assumption].
  - f_equal. apply (same_bits_at _ _ _ Ag 66 4 66 4); [now left|lia|lia].
  - f_equal. apply (same_bits_at _ _ _ Ag 70 20 70 20); [now left|lia|lia].
  - f_equal. apply (same_text_at _ _ _ Ag 90 7 90 42 call_sign call_sign'); [now left|lia|lia|assumption|assumption].
  - f_equal. apply (same_bits_at _ _ _ Ag 132 9 132 9); [now left|lia|lia].
  - f_equal. apply (same_bits_at _ _ _ Ag 141 9 141 9); [now left|lia|lia].
  - f_equal. apply (same_bits_at _ _ _ Ag 150 6 150 6); [now left|lia|lia].
  - f_equal. apply (same_bits_at _ _ _ Ag 156 6 156 6); [now left|lia|lia].
  - f_equal. apply (same_bits_at _ _ _ Ag 132 30 132 30); [now left|lia|lia].
  - repeat split.
Qed.
Print Assumptions c108_static_bits_partial.

(** The name depends on part A only, but on more than its own 120 bits: on the 600 bits that follow them as well. *)
Theorem c108_static_name_partial ovf ovf' a b a' b' d d' :
  made_of ovf a b d -> made_of ovf' a' b' d' ->
  agree_in (payload_bits a) (payload_bits a') [(40, 720)%nat] -> snd (name_24 d d').
Proof.
  assert (G : forall ovf a b d, made_of ovf a b d -> exists name, text_at (payload_bits a) 40 120 name /\ vsd_name d = text_value name).
  { intros o x y e H. destruct (made_of_parts _ _ _ _ H) as (o1 & o2 & v & w & Sv & Sw & E & M & A & B).
    destruct Sv as [name X1 X2 X3|]; [|congruence]. destruct Sw as [|vendor sign]; [congruence|]. exists name. split; [exact X3|].
    destruct M as [(_ & _ & _ & _ & _ & _ & _ & Q & _)|(_ & _ & _ & _ & _ & _ & _ & Q & _)];
      [exact (from_b _ _ _ _ (or_intror Q) eq_refl)|exact (from_b _ _ _ _ (or_introl Q) eq_refl)]. }
  intros H H' Ag. destruct (G _ _ _ _ H) as (t & T & E). destruct (G _ _ _ _ H') as (t' & T' & E').
  cbn [name_24 snd]. rewrite E, E'. f_equal.
  apply (same_text_at _ _ _ Ag 40 120 40 720 t t'); [now left|lia|lia|assumption|assumption].
Qed.
Print Assumptions c108_static_name_partial.

Lemma made_here x y d :
  completes (ex_report x) (lit "AI") (lit "VDM") new_parser x ->
  completes (ex_report y) (lit "AI") (lit "VDM") (snd (parse_sentence true ex_now (ex_report x) new_parser)) y ->
  bits_at (payload_bits x) 0 6 = 24 -> bits_at (payload_bits x) 38 2 = 0 ->
  bits_at (payload_bits y) 0 6 = 24 -> bits_at (payload_bits y) 38 2 = 1 ->
  bits_at (payload_bits x) 8 30 = bits_at (payload_bits y) 8 30 ->
  fst (parse_sentence true ex_now (ex_report y) (snd (parse_sentence true ex_now (ex_report x) new_parser))) = Ok (PsVesselStaticData d) ->
  made_of true x y d.
Proof.
  intros C C' H1 H2 H3 H4 H5 H.
  assert (K : clock ex_now) by (vm_compute; intuition discriminate).
  assert (Y : (0 <= dt_year ex_now)%Z) by discriminate.
  exists new_parser, ex_now, (ex_report x), ex_now, (ex_report y), (lit "AI"), (lit "VDM"), (lit "AI"), (lit "VDM"), x, y.
  cbv zeta. split; [exists []; reflexivity|]. split; [exact K|]. split; [exact Y|]. split; [exact K|]. split; [exact Y|].
  split; [exact C|]. split; [exact C'|]. split; [left; split; reflexivity|].
  split; [exact H1|]. split; [exact H2|]. split; [exact H3|]. split; [exact H4|]. split; [exact H5|].
  split; [reflexivity|exact H].
Qed.

Definition ex_name_20 : str := lit "H42O55i@PF0htpLE=B0p4lF1TE@0".
Definition ex_name_21 : str := lit "H42O55i@PF0htpLE=B0p4lF1TEA<".
Definition ex_rest_1 : str := lit "H42O55lt@B?001TD3nink000?050".
Definition ex_rest_2 : str := lit "H42O55lt@B?001TD3nink000I050".

(** Part A of two reports has the same 120 bits of name; the spare bits behind differ, and the name reported does. *)
Theorem c108_static_name_refuted :
  exists a a' b d d', made_of true a b d /\ made_of true a' b d' /\
    agree_in (payload_bits a) (payload_bits a') (fst (name_24 d d')) /\ ~ snd (name_24 d d').
Proof.
  exists ex_name_20, ex_name_21, ex_rest_1.
  assert (R : exists d d',
    fst (parse_sentence true ex_now (ex_report ex_rest_1) (snd (parse_sentence true ex_now (ex_report ex_name_20) new_parser))) =
      Ok (PsVesselStaticData d) /\
    fst (parse_sentence true ex_now (ex_report ex_rest_1) (snd (parse_sentence true ex_now (ex_report ex_name_21) new_parser))) =
      Ok (PsVesselStaticData d') /\ vsd_name d = Some (lit "THE LONGEST NAME YET") /\ vsd_name d' = Some (lit "THE LONGEST NAME YETS")).
  { do 2 eexists. split; [vm_compute; reflexivity|]. split; [vm_compute; reflexivity|]. split; vm_compute; reflexivity. }
  destruct R as (d & d' & H & H' & N & N'). exists d, d'.
  split; [apply made_here; [example_message|example_message|reflexivity..|exact H]|].
  split; [apply made_here; [example_message|example_message|reflexivity..|exact H']|].
  split; [|cbn [name_24 snd]; rewrite N, N'; discriminate].
  intros i n q [[= <- <-]|[]] Hq.
  assert (F : forallb (fun q => Bool.eqb (nth q (payload_bits ex_name_20) false) (nth q (payload_bits ex_name_21) false)) (seq 40 120) = true)
    by (vm_compute; reflexivity).
  rewrite forallb_forall in F. apply eqb_prop, F, in_seq. lia.
Qed.
Print Assumptions c108_static_name_refuted.

(** Two vessels' parts with another stern and another name: vendor, call sign and the other dimensions are alike. *)
Example c108_static_example : exists d d',
  made_of true ex_name_20 ex_rest_1 d /\ made_of true ex_name_21 ex_rest_2 d' /\
  vsd_dimension_to_stern d = Some 15 /\ vsd_dimension_to_stern d' = Some 25 /\
  vsd_call_sign d = Some (lit "TC6163") /\ vsd_call_sign d' = vsd_call_sign d /\ vsd_dimension_to_bow d = vsd_dimension_to_bow d'.
Proof.
  assert (R : exists d d',
    fst (parse_sentence true ex_now (ex_report ex_rest_1) (snd (parse_sentence true ex_now (ex_report ex_name_20) new_parser))) =
      Ok (PsVesselStaticData d) /\
    fst (parse_sentence true ex_now (ex_report ex_rest_2) (snd (parse_sentence true ex_now (ex_report ex_name_21) new_parser))) =
      Ok (PsVesselStaticData d') /\ vsd_dimension_to_stern d = Some 15 /\ vsd_dimension_to_stern d' = Some 25 /\
      vsd_call_sign d = Some (lit "TC6163")).
  { do 2 eexists. split; [vm_compute; reflexivity|]. split; [vm_compute; reflexivity|]. repeat split; vm_compute; reflexivity. }
  destruct R as (d & d' & H & H' & N & N' & S).
  assert (M : made_of true ex_name_20 ex_rest_1 d) by (apply made_here; [example_message|example_message|reflexivity..|exact H]).
  assert (M' : made_of true ex_name_21 ex_rest_2 d') by (apply made_here; [example_message|example_message|reflexivity..|exact H']).
  assert (L : forall i n, ((i + n) <= 132)%nat \/ (i = 132 /\ n = 9)%nat -> agree_in (payload_bits ex_rest_1) (payload_bits ex_rest_2) [(i, n)]).
  { intros i n B i' n' q [[= <- <-]|[]] Hq.
    assert (F : forallb (fun q => Bool.eqb (nth q (payload_bits ex_rest_1) false) (nth q (payload_bits ex_rest_2) false)) (seq 0 141) = true)
      by (vm_compute; reflexivity).
    rewrite forallb_forall in F. apply eqb_prop, F, in_seq. lia. }
  pose proof (c108_static_bits_partial _ _ _ _ _ _ _ _ M M') as A.
  exists d, d'. split; [exact M|]. split; [exact M'|]. split; [exact N|]. split; [exact N'|]. split; [exact S|].
  split; [symmetry; apply (A [(90, 42)%nat]); [do 5 right; now left|apply L; lia]|].
  apply (A [(132, 9)%nat]); [do 6 right; now left|apply L; lia].
Qed.
