(** Further examples for C14-C59: as in Cases1, inputs that meet all hypotheses of the theorems named. *)
From stdpp Require Import gmap.
From Coq Require Import List NArith ZArith Bool String Lia Reals Lra Floats.SpecFloat.
From Verif Require Import Base Str F64 Chrono Types Util AisMod Vdm Gnss Parser
  SpecText SpecResult SpecAis SpecTime SpecState SpecGnss SpecMerge SpecCountry SpecReal SpecMeasure SpecFields
  StrFacts FrontFacts CallFacts ResultFacts BitFacts VdmFacts LayoutFacts StateFacts RunFacts FloatFacts DecimalFacts FieldFacts
  PropFront PropBits PropAis PropState PropStatic PropGsv PropMeasure PropFields PropTables Cases1.
Import ListNotations.
Open Scope N_scope.
Local Opaque f64_div f64_mul f64_of_Z f64_of_dec.

(** ** C23, C29, C30, C59 *)

Example c23_voyage_one_sentence_partial_case ovf p :
  exists d, parse_sentence ovf ex_now (ex_voyage_sentence 70 5 15 14 0 122) p = (Ok (PsVesselStaticData d), p) /\
    vsd_ais_type d <> AisClassA /\ vsd_name d = Some (lit "EVER DIADEM") /\
    vsd_eta d = Some (mk_datetime 2021 5 15 14 0 30 0).
Proof.
  assert (H : parse_sentence ovf ex_now (ex_voyage_sentence 70 5 15 14 0 122) p =
    (Ok (PsVesselStaticData (voyage_report AisClassB false 351759000 0 9134270 (lit "3FOF8") (lit "EVER DIADEM")
       70 225 70 1 31 1 (Some (mk_datetime 2021 5 15 14 0 30 0)) 122 (lit "NEW YORK"))), p)).
  { apply (c23_voyage_one_sentence_partial ovf ex_now _ p (lit "AI") (lit "VDM") 0 351759000 0 9134270 (lit "3FOF8")
      (map six_code (lit "3FOF8") ++ repeat 32 2 ++ []) (lit "EVER DIADEM") (map six_code (lit "EVER DIADEM") ++ repeat 32 9 ++ [])
      70 225 70 1 31 1 5 15 14 0 122 (lit "NEW YORK") (map six_code (lit "NEW YORK") ++ repeat 32 12 ++ []) false 0
      (Some (mk_datetime 2021 5 15 14 0 30 0)) []); try reflexivity; try (apply check_text_field; reflexivity).
    - rewrite app_nil_r. encoded.
    - apply eta_some; [intros (X & _); discriminate X|reflexivity|reflexivity| |vm_compute; auto; split; discriminate|vm_compute; intuition discriminate|vm_compute; intuition discriminate].
      right. right. repeat split; discriminate. }
  eexists. split; [exact H|]. split; [discriminate|]. split; reflexivity.
Qed.


Example c30_both_parts_refuted_case ovf :
  exists d, run ovf [(ex_now, ex_part_a); (ex_now, ex_part_a)] new_parser =
    ([Ok PsIncomplete; Ok (PsVesselStaticData d)], new_parser) /\ vsd_call_sign d = None.
Proof.
  destruct (c30_both_parts_refuted ovf ex_now ex_now [] ex_part_a ex_part_a (lit "VDM") (lit "VDM") new_parser 271041815
    (lit "PROGUY") (lit "PROGUY") ex_part_a_is ex_part_a_is eq_refl Logic.I) as (d & H & H1 & _).
  exists d. split; [|exact H1]. exact H.
Qed.

Example c30_two_part_b_refuted_case ovf :
  exists d, run ovf [(ex_now, ex_part_b); (ex_now, ex_part_b)] new_parser =
    ([Ok PsIncomplete; Ok (PsVesselStaticData d)], new_parser) /\ vsd_name d = None.
Proof.
  destruct (c30_two_part_b_refuted ovf ex_now ex_now [] ex_part_b ex_part_b (lit "VDM") (lit "VDM") new_parser 271041815
    _ _ _ _ _ _ _ _ _ _ _ _ _ _ _ _ _ _ ex_part_b_is ex_part_b_is eq_refl Logic.I) as (d & H & H1).
  exists d. split; [|exact H1]. exact H.
Qed.

Definition ex_part_b_bits : list bool := layout_bits
    [U 6 24; U 2 0; U 30 271041815; U 2 1; U 8 60; T 3 [49; 4; 48]; U 4 12; U 20 199796;
     T 7 [20; 3; 54; 49; 54; 51; 0]; U 9 0; U 9 15; U 6 0; U 6 5] ++ repeat false 6.
Lemma ex_part_b_fragment : one_fragment ex_part_b (lit "AI") (lit "VDM") (armor ex_part_b_bits).
Proof. message. Qed.

Example c30_report_needs_two_sentences_partial_case :
  exists now0 s0 h1 h2, [(ex_now, ex_part_a)] = h1 ++ (now0, s0) :: h2 /\
    touches true s0 (after true h1 new_parser) (Vessel 271041815).
Proof.
  destruct (c30_report_needs_two_sentences_partial true [(ex_now, ex_part_a)] ex_now ex_part_b (lit "AI") (lit "VDM")
    (armor ex_part_b_bits)) with (d := match fst (parse_sentence true ex_now ex_part_b (after true [(ex_now, ex_part_a)] new_parser))
      with Ok (PsVesselStaticData d) => d | _ => class_b_report false 0 [] 0 [] 0 0 [] 0 0 0 0 end) as (H & h1 & now0 & s0 & h2 & E & T & _).
  - apply complete_one, ex_part_b_fragment.
  - vm_compute. reflexivity.
  - vm_compute. reflexivity.
  - exists now0, s0, h1, h2. split; [exact E|]. rewrite H in T.
    replace (bits_at (payload_bits (armor ex_part_b_bits)) 8 30) with 271041815%N in T by (vm_compute; reflexivity).
    exact T.
Qed.

Example c59_merge_keeps_values_case :
  exists d, fst (parse_sentence true ex_now ex_part_b (after true [(ex_now, ex_part_a)] new_parser)) =
      Ok (PsVesselStaticData d) /\
    loses (Vessel 271041815) (after true [(ex_now, ex_part_a)] new_parser)
      (snd (parse_sentence true ex_now ex_part_b (after true [(ex_now, ex_part_a)] new_parser))).
Proof.
  destruct c59_example as (R & (w & W & _) & N0 & v & V & _).
  destruct (c59_merge_keeps_values true ex_now ex_part_b _ _ _ _ new_parser 271041815 v w R ex_part_b_fragment N0 V W)
    as (d & D & _ & L).
  exists d. split; [exact D|exact L].
Qed.

Example c59_merge_never_fails_case :
  let p := after true [(ex_now, ex_part_a)] new_parser in
  fst (parse_sentence true ex_now ex_part_b p) = Ok PsIncomplete \/
  exists d, fst (parse_sentence true ex_now ex_part_b p) = Ok (PsVesselStaticData d).
Proof.
  cbv zeta. apply (c59_merge_never_fails true ex_now ex_part_b (lit "AI") (lit "VDM") _ (armor ex_part_b_bits)).
  - exists [(ex_now, ex_part_a)]. exact eq_refl.
  - apply complete_one, ex_part_b_fragment.
  - intros _. rewrite Forall_forall. assert (H : forallb (fun c => 48 <=? c mod 256)%N (armor ex_part_b_bits) = true) by (vm_compute; reflexivity).
    rewrite forallb_forall in H. intros c Hc. apply N.leb_le. exact (H c Hc).
  - vm_compute. reflexivity.
  - vm_compute. discriminate.
Qed.

(** ** C14 *)

Example c14_ais_and_gnss_independent_case ovf :
  let m := [(1, (ex_now, ex_first)); (0, (ex_now, ex_gsv1)); (1, (ex_now, ex_second))] in
  stream_results ovf 1 m new_parser = results ovf (stream 1 m) new_parser.
Proof.
  cbv zeta. apply c14_ais_and_gnss_independent; [| | |now right].
  - intros c [E|[E|[E|[]]]] tt fff fields (H & _); try discriminate E. injection E as <-.
    assert (S : sentence ex_gsv1 (split_on 44 (firstn 65 ex_gsv1))) by (apply check_sentence; vm_compute; split; reflexivity).
    pose proof (sentence_unique _ _ _ S H) as X. discriminate X.
  - intros c [E|[E|[E|[]]]] tt fields (H & _); try discriminate E; injection E as <-.
    + assert (S : sentence ex_first (split_on 44 (firstn (Nat.sub (List.length ex_first) 3) ex_first)))
        by (apply check_sentence; vm_compute; split; reflexivity).
      pose proof (sentence_unique _ _ _ S H) as X. discriminate X.
    + assert (S : sentence ex_second (split_on 44 (firstn (Nat.sub (List.length ex_second) 3) ex_second)))
        by (apply check_sentence; vm_compute; split; reflexivity).
      pose proof (sentence_unique _ _ _ S H) as X. discriminate X.
  - intros i c [E|[E|[E|[]]]]; injection E as <- _; auto.
Qed.

(** The first halves of two messages that differ in their identification. *)
Definition ex_other_first : str := lit "!AIVDM,2,1,2,A,55?MbV02;H;s<HtKR20EHE:0@T4@Dn2222222216L961O5Gf0NSQEp6ClRp8,0".
Lemma ex_other_first_fragment : fragment ex_other_first (lit "AI") (lit "VDM") 2 (lit "A") 1 ex_first_payload.
Proof.
  apply (check_fragment _ _ _ _ _ _ _ [lit "0"]); [|now left|reflexivity]. apply check_vdm; [|reflexivity]. vm_compute. auto.
Qed.

Lemma fragment_touches_text ovf s tt fff mid channel n payload p e :
  fragment s tt fff mid channel n payload -> (forall x, ~ completes s tt fff p x) -> touches ovf s p e -> exists k, e = Text k.
Proof.
  intros F C [tt' fff' mid' channel' n' payload' k F' _|tt' c' n' k F'|tt' fff' payload' F' _ _]; [eauto|eauto|].
  exfalso. apply (C payload').
  destruct F as (f & a & b & c & V & _). destruct V as (S & _ & L & O).
  assert (E : lit "!" ++ tt ++ fff = lit "!" ++ tt' ++ fff').
  { destruct F' as [x (? & ? & ? & ? & ? & (? & (S' & _)) & _)|mid' channel' ? ? (? & ? & ? & ? & (S' & _) & _) _
      |mid' channel' ? ? (? & ? & ? & ? & (S' & _) & _) _]; pose proof (sentence_unique _ _ _ S S') as X; injection X; intros; cbn; congruence. }
  assert (O' : utf8_bytes tt' = 2%nat /\ (fff' = lit "VDM" \/ fff' = lit "VDO")).
  { destruct F' as [x (? & ? & ? & ? & ? & (? & (S' & _ & ? & ?)) & _)|mid' channel' ? ? (? & ? & ? & ? & (S' & _ & ? & ?) & _) _
      |mid' channel' ? ? (? & ? & ? & ? & (S' & _ & ? & ?) & _) _]; auto. }
  cbn in E. injection E as E.
  assert (List.length fff = List.length fff') by (destruct O as [->| ->], O' as [_ [->| ->]]; reflexivity).
  apply app_inj_2 in E as [-> ->]; [exact F'|assumption].
Qed.

Lemma lone_fragment_not_complete s tt fff mid channel n payload p x :
  fragment s tt fff mid channel n payload -> (forall k, k = 1 \/ k = 2 -> stored p (Text (fragment_key fff mid channel k)) = None) ->
  completes s tt fff p x -> False.
Proof.
  intros F W [y O|mid' channel' a b F' X|mid' channel' a b F' X].
  - destruct F as (f & count & ? & ? & (S & _) & E & D & _). destruct O as (? & ? & ? & ? & ? & (? & (S' & _)) & D' & _).
    pose proof (sentence_unique _ _ _ S S') as Y. injection Y as Y. subst f. injection E as <-.
    pose proof (denotes_unique _ _ _ D D'). discriminate.
  - destruct (fragment_unique _ _ _ _ _ _ _ _ _ _ _ _ _ F F') as (_ & _ & <- & <- & _).
    unfold waiting in X. rewrite (W 1 (or_introl eq_refl)) in X. discriminate.
  - destruct (fragment_unique _ _ _ _ _ _ _ _ _ _ _ _ _ F F') as (_ & _ & <- & <- & _).
    unfold waiting in X. rewrite (W 2 (or_intror eq_refl)) in X. discriminate.
Qed.

Example c14_messages_independent_case ovf :
  let m := [(1, (ex_now, ex_first)); (2, (ex_now, ex_other_first))] in
  stream_results ovf 2 m new_parser = results ovf (stream 2 m) new_parser.
Proof.
  cbv zeta. apply (c14_messages_independent ovf _ _ (fun _ => lit "VDM") (fun i => i) (fun _ => lit "A")).
  - intros i c [E|[E|[]]]; injection E as <- <-; do 3 eexists; [exact ex_first_fragment|exact ex_other_first_fragment].
  - intros i j c d _ _ Hne. right. now left.
  - intros i. unfold stream. cbn [List.filter fst snd].
    assert (A : forall s mid, fragment s (lit "AI") (lit "VDM") mid (lit "A") 1 ex_first_payload ->
      touches_only ovf (fun e => exists k, e = Text k) [(ex_now, s)] new_parser).
    { intros s mid F. split; [|exact Logic.I]. intros e. apply (fragment_touches_text _ _ _ _ _ _ _ _ _ _ F).
      intros x Hx. apply (fun W => lone_fragment_not_complete _ _ _ _ _ _ _ _ _ F W Hx). intros k _. vm_compute. reflexivity. }
    destruct (N.eqb_spec i 1) as [->|H1].
    + cbn. exact (A _ _ ex_first_fragment).
    + destruct (N.eqb_spec i 2) as [->|H2]; [cbn; exact (A _ _ ex_other_first_fragment)|].
      replace (1 =? i) with false by (symmetry; apply N.eqb_neq; congruence).
      replace (2 =? i) with false by (symmetry; apply N.eqb_neq; congruence). exact Logic.I.
Qed.

(** ** C32, C35, C36 *)
Open Scope R_scope.

Lemma ex_far_fragment : one_fragment (encode_sentence (lit "AI") (lit "VDM") (lit "A") ex_far_bits) (lit "AI") (lit "VDM") (armor ex_far_bits).
Proof. encoded. Qed.

Example c32_coordinates_injective_case : exists lat1 lon1 lat2 lon2 r1 r2,
  parse_sentence true ex_now ex_position new_parser = (Ok r1, new_parser) /\ position r1 = Some (lat1, lon1) /\
  parse_sentence true ex_now ex_turn new_parser = (Ok r2, new_parser) /\ position r2 = Some (lat2, lon2) /\
  lat1 <> lat2 /\ lon1 <> lon2.
Proof.
  assert (H1 : exists r, parse_sentence true ex_now ex_position new_parser = (Ok r, new_parser)) by (eexists; vm_compute; reflexivity).
  assert (H2 : exists r, parse_sentence true ex_now ex_turn new_parser = (Ok r, new_parser)) by (eexists; vm_compute; reflexivity).
  destruct H1 as (r1 & H1), H2 as (r2 & H2).
  destruct (c32_nearest_coordinates _ _ _ _ _ _ _ 1%N 61%nat 89%nat _ _ ex_position_fragment eq_refl eq_refl H1) as (a1 & b1 & E1 & _).
  destruct (c32_nearest_coordinates _ _ _ _ _ _ _ 1%N 61%nat 89%nat _ _ ex_turn_fragment eq_refl eq_refl H2) as (a2 & b2 & E2 & _).
  destruct (c32_coordinates_injective _ _ _ _ _ _ _ _ _ _ _ _ 1%N 1%N _ _ _ _ _ _ _ _ _ _ _ _ ex_position_fragment eq_refl eq_refl
    ex_turn_fragment eq_refl eq_refl H1 E1 H2 E2) as [La Lo].
  exists a1, b1, a2, b2, r1, r2. repeat (split; [assumption|]).
  split; intros X; [apply La in X|apply Lo in X]; vm_compute in X; discriminate.
Qed.

(** The ship of [ex_turn] turning the other way. *)
Definition ex_other_turn_bits : list bool := layout_bits
  [U 6 1; U 2 0; U 30 371798000; U 4 0; I 8 (-126); U 10 0; F true; I 28 0; I 27 0;
   U 12 0; U 9 0; U 6 0; U 2 1; U 3 0; F false; U 19 0].
Definition ex_other_turn : str := encode_sentence (lit "AI") (lit "VDM") (lit "A") ex_other_turn_bits.
Lemma ex_other_turn_fragment : one_fragment ex_other_turn (lit "AI") (lit "VDM") (armor ex_other_turn_bits).
Proof. encoded. Qed.

Example c35_turn_order_case : exists d1 d2 x1 x2,
  parse_sentence true ex_now ex_other_turn new_parser = (Ok (PsVesselDynamicData d1), new_parser) /\ vdd_rot d1 = Some x1 /\
  parse_sentence true ex_now ex_turn new_parser = (Ok (PsVesselDynamicData d2), new_parser) /\ vdd_rot d2 = Some x2 /\
  real_of x1 < real_of x2 /\ real_of x1 = - real_of x2.
Proof.
  assert (H1 : exists d x, parse_sentence true ex_now ex_other_turn new_parser = (Ok (PsVesselDynamicData d), new_parser) /\
    vdd_rot d = Some x) by (do 2 eexists; split; vm_compute; reflexivity).
  assert (H2 : exists d x, parse_sentence true ex_now ex_turn new_parser = (Ok (PsVesselDynamicData d), new_parser) /\
    vdd_rot d = Some x) by (do 2 eexists; split; vm_compute; reflexivity).
  destruct H1 as (d1 & x1 & H1 & X1), H2 as (d2 & x2 & H2 & X2).
  destruct (c35_turn_order _ _ _ _ _ _ _ _ _ _ _ _ 1%N 1%N _ _ _ _ _ _ (-126)%Z 126%Z ex_other_turn_fragment eq_refl ltac:(auto)
    ex_turn_fragment eq_refl ltac:(auto) eq_refl eq_refl H1 X1 H2 X2) as [L E].
  exists d1, d2, x1, x2. repeat (split; [assumption|]). split; [apply L; reflexivity|apply E; reflexivity].
Qed.

Example c36_manoeuvre_partial_case : exists d,
  parse_sentence true ex_now ex_turn new_parser = (Ok (PsVesselDynamicData d), new_parser) /\
  vdd_special_manoeuvre d = Some true.
Proof.
  assert (H : exists r, parse_sentence true ex_now ex_turn new_parser = (Ok r, new_parser)) by (eexists; vm_compute; reflexivity).
  destruct H as (r & H).
  destruct (c36_manoeuvre_partial _ _ _ _ _ _ _ 1%N _ _ ex_turn_fragment eq_refl ltac:(auto) H) as (d & -> & M & _).
  exists d. split; [exact H|]. apply M. left. vm_compute. reflexivity.
Qed.
