(** C97: everything that a parser keeps, for every history. *)
From stdpp Require Import gmap.
From Coq Require Import List NArith ZArith Bool String Lia.
From Verif Require Import Base Str F64 Chrono Types Util AisMod Vdm Gnss Parser
  SpecText SpecResult SpecAis SpecState SpecGnss SpecMerge SpecAssembly SpecGroups SpecPairs SpecWhole
  StrFacts FrontFacts CallFacts ResultFacts BitFacts VdmFacts
  StateFacts RunFacts PropFront PropState PropStatic PropGsv PropAssembly PropGroups PropPairs.
Import ListNotations.
Open Scope N_scope.
Local Opaque pick_string pick_u64 pick_i64 pick_eta parse_f64.

(** ** C97 *)

(** Texts are only kept for halves of AIS messages and for satellite messages. *)
Definition possible (e : entry) : Prop :=
  match e with
  | Text k => (exists fff mid channel n, formatter fff /\ (n = 1 \/ n = 2) /\ k = fragment_key fff mid channel n) \/
              exists tt c n, plain tt /\ k = gsv_key tt c n
  | Vessel _ => True
  end.

Lemma touches_possible ovf s p e : touches ovf s p e -> possible e.
Proof.
  intros [tt fff mid channel n payload k Hf Hk|tt c n k Hp|]; cbn; [| |exact Logic.I].
  - left. exists fff, mid, channel, k. split; [exact (fragment_formatter _ _ _ _ _ _ _ Hf)|]. auto.
  - right. exists tt, c, k. split; [|reflexivity]. destruct Hp as (f & Hf & _). now apply gsv_with_plain in Hf.
Qed.

Lemma kept_possible ovf h e : stored (after ovf h new_parser) e <> None -> possible e.
Proof.
  induction h as [|[now s] h IH] using rev_ind.
  - destruct e; cbn; rewrite lookup_empty; cbn; tauto.
  - rewrite after_app, after_cons. cbn [after run snd]. intros H.
    assert (D : possible e \/ ~ possible e -> possible e).
    { intros [D|D]; [exact D|]. apply IH. rewrite <- (call_writes ovf now s (after ovf h new_parser) e); [exact H|].
      intros T. apply D. eapply touches_possible. exact T. }
    destruct e as [k|v]; [|exact Logic.I].
    destruct (stored (after ovf h new_parser) (Text k)) as [x|] eqn:E; [apply IH; congruence|].
    pose proof (sentence_kind ovf now s) as (f & K & Hf). rewrite Hf in H.
    destruct K as [r|tt fff payload Hs|tt fff mid channel a Hs|tt fff mid channel b Hs|tt c n body given Hs Hb].
    + cbn [snd] in H. congruence.
    + exfalso. apply H. apply stored_kept_none. rewrite decode_text. now apply stored_kept_none.
    + apply D. destruct (decide (k = fragment_key fff mid channel 1)) as [-> |N1].
      { left. left. exists fff, mid, channel, 1. split; [exact (fragment_formatter _ _ _ _ _ _ _ Hs)|]. auto. }
      exfalso. apply H. unfold first_step. destruct (kept _ _) as [b|].
      * apply stored_kept_none. rewrite decode_text, kept_without. apply stored_kept_none in E. now destruct (decide _).
      * cbn [snd]. rewrite stored_push, decide_False by congruence. exact E.
    + apply D. destruct (decide (k = fragment_key fff mid channel 2)) as [-> |N1].
      { left. left. exists fff, mid, channel, 2. split; [exact (fragment_formatter _ _ _ _ _ _ _ Hs)|]. auto. }
      exfalso. apply H. unfold second_step. destruct (kept _ _) as [a|].
      * apply stored_kept_none. rewrite decode_text, kept_without. apply stored_kept_none in E. now destruct (decide _).
      * cbn [snd]. rewrite stored_push, decide_False by congruence. exact E.
    + assert (Ht : plain tt) by (destruct Hs as (g & Hg & _); now apply gsv_with_plain in Hg).
      destruct (own_entry_dec tt c (Text k)) as [(i & Ei)|O].
      { right. exists tt, c, i. split; [exact Ht|]. now apply Text_inj in Ei. }
      exfalso. apply H. rewrite <- E. cbn [stored]. f_equal. apply gsv_step_writes. intros i ->. apply O. now exists i.
Qed.

Lemma assembled_formatter m h l m' : assembled m h l m' ->
  (forall fff mid channel x, m (fff, mid, channel) = Some x -> formatter fff) ->
  forall fff mid channel x, m' (fff, mid, channel) = Some x -> formatter fff.
Proof.
  intros A. induction A as [m|m now s h l m' _ _ IH|m m1 now s tt fff mid channel n x h l m' Hs Hm [C1 C2] _ IH
    |m m1 now s tt fff mid channel n x k y whole h l m' Hs Hm Hk Hw [C1 C2] _ IH]; intros U; [exact U|exact (IH U)| |]; apply IH.
  - intros f i c z Hy. destruct (decide ((f, i, c) = (fff, mid, channel))) as [E|D].
    + injection E as -> -> ->. exact (fragment_formatter _ _ _ _ _ _ _ Hs).
    + rewrite C2 in Hy by exact D. exact (U _ _ _ _ Hy).
  - intros f i c z Hy. destruct (decide ((f, i, c) = (fff, mid, channel))) as [E|D].
    + rewrite E, C1 in Hy. discriminate Hy.
    + rewrite C2 in Hy by exact D. exact (U _ _ _ _ Hy).
Qed.

Lemma collected_plain ovf g h l g' : collected ovf g h l g' ->
  (forall tt c n x, g (tt, c, n) = Some x -> plain tt) -> forall tt c n x, g' (tt, c, n) = Some x -> plain tt.
Proof.
  assert (R1 : forall g tt c n fields g1, received g tt c n fields g1 -> plain tt ->
    (forall tt c n x, g (tt, c, n) = Some x -> plain tt) -> forall tt c n x, g1 (tt, c, n) = Some x -> plain tt).
  { intros g0 tt c n fields g1 [R1 R2] Ht U tt' c' n' x E. destruct (decide ((tt', c', n') = (tt, c, n))) as [X|X].
    - assert (tt' = tt) as -> by congruence. exact Ht.
    - rewrite R2 in E by exact X. exact (U _ _ _ _ E). }
  intros H. induction H as [g|g now s h l g' Hs _ IH|g g1 now s tt c n fields k h l g' Hs Hc R Hk Hg _ IH
    |g g1 g2 now s tt c n fields nav all sats h l g' Hs Hc R Hall Hv Hsat T _ IH|g g1 now s tt n fields h l g' Hs R _ IH];
    intros U; [exact U|now apply IH| | |].
  - apply IH. eapply R1; [exact R|exact (gsv_message_plain _ _ _ _ _ Hs)|exact U].
  - apply IH. destruct T as [T1 T2]. intros tt' c' n' x E.
    apply (R1 _ _ _ _ _ _ R (gsv_message_plain _ _ _ _ _ Hs) U tt' c' n' x). rewrite <- T2; [exact E|].
    intros i Hi X. rewrite X, T1 in E by exact Hi. discriminate E.
  - apply IH. eapply R1; [exact R|exact (gsv_message_plain _ _ _ _ _ Hs)|exact U].
Qed.

(** After any history the parser keeps the waiting halves, satellite messages and static parts, each with its
    contents, and nothing else. *)
Theorem c97_memory ovf h l m ga g pa w :
  assembled no_halves h l m -> collected ovf no_messages h ga g -> paired ovf no_parts l pa w ->
  forall e x, stored (after ovf h new_parser) e = Some x <-> waits m g w e x.
Proof.
  intros A C P e x. destruct (c94_assembly ovf h l m A) as (_ & _ & Hm).
  destruct (c95_groups ovf h ga g C) as [_ Hg]. destruct (c96_pairs ovf h l m pa w A P) as [_ Hw].
  assert (Fm : forall fff mid channel x, m (fff, mid, channel) = Some x -> formatter fff)
    by (apply (assembled_formatter _ _ _ _ A); discriminate).
  assert (Fg : forall tt c n x, g (tt, c, n) = Some x -> plain tt)
    by (apply (collected_plain _ _ _ _ _ C); discriminate).
  split.
  - intros H. pose proof (kept_possible ovf h e) as Q. rewrite H in Q. specialize (Q ltac:(discriminate)).
    destruct e as [k|v].
    + destruct Q as [(fff & mid & channel & n & Hf & Hn & ->)|(tt & c & n & Ht & ->)].
      * destruct x as [y|d]; [|cbn [stored] in H; destruct (saved_fragments _ !! _); discriminate H].
        apply waits_half. apply (Hm fff mid channel n y Hf). split; [exact H|exact Hn].
      * rewrite Hg in H by exact Ht. destruct (g (tt, c, n)) as [fields|] eqn:E; [|discriminate H].
        cbn [option_map] in H. injection H as <-. now apply waits_message.
    + rewrite Hw in H. destruct (w v) as [d|] eqn:E; [|discriminate H]. injection H as <-. now apply waits_part.
  - intros [fff mid channel n y E|tt c n fields E|v d E].
    + apply (Hm fff mid channel n y (Fm _ _ _ _ E)) in E as [E _]. exact E.
    + rewrite Hg, E by exact (Fg _ _ _ _ E). reflexivity.
    + now rewrite Hw, E.
Qed.
Print Assumptions c97_memory.

(** The descriptions exist for every history, so the theorem has no exceptions; and histories that leave the same
    things waiting leave the same parser, whatever else they contain. *)
Theorem c97_every_history ovf h : exists l m ga g pa w,
  assembled no_halves h l m /\ collected ovf no_messages h ga g /\ paired ovf no_parts l pa w.
Proof.
  destruct (c96_every_history ovf h) as (l & m & pa & w & A & P). destruct (c95_every_history ovf h) as (ga & g & C).
  exists l, m, ga, g, pa, w. auto.
Qed.
Print Assumptions c97_every_history.

Theorem c97_same_future ovf h1 h2 l1 l2 m1 m2 ga1 ga2 g1 g2 pa1 pa2 w1 w2 h :
  assembled no_halves h1 l1 m1 -> collected ovf no_messages h1 ga1 g1 -> paired ovf no_parts l1 pa1 w1 ->
  assembled no_halves h2 l2 m2 -> collected ovf no_messages h2 ga2 g2 -> paired ovf no_parts l2 pa2 w2 ->
  (forall k, m1 k = m2 k) -> (forall k, g1 k = g2 k) -> (forall k, w1 k = w2 k) ->
  after ovf h1 new_parser = after ovf h2 new_parser /\
  results ovf (h1 ++ h) new_parser = results ovf h1 new_parser ++ results ovf h (after ovf h2 new_parser).
Proof.
  intros A1 C1 P1 A2 C2 P2 Em Eg Ew.
  assert (Q : forall e x, waits m1 g1 w1 e x <-> waits m2 g2 w2 e x).
  { intros e x. split; intros [fff mid channel n y X|tt c n fields X|v d X].
    - apply waits_half. now rewrite <- Em.
    - apply waits_message. now rewrite <- Eg.
    - apply waits_part. now rewrite <- Ew.
    - apply waits_half. now rewrite Em.
    - apply waits_message. now rewrite Eg.
    - apply waits_part. now rewrite Ew. }
  assert (E : after ovf h1 new_parser = after ovf h2 new_parser).
  { apply stored_ext. intros e.
    pose proof (c97_memory ovf h1 l1 m1 ga1 g1 pa1 w1 A1 C1 P1 e) as H1. pose proof (c97_memory ovf h2 l2 m2 ga2 g2 pa2 w2 A2 C2 P2 e) as H2.
    destruct (stored (after ovf h1 new_parser) e) as [x|].
    - symmetry. apply H2, Q, H1. reflexivity.
    - destruct (stored (after ovf h2 new_parser) e) as [y|]; [|reflexivity]. apply H1, Q, H2. reflexivity. }
  split; [exact E|]. now rewrite results_app, E.
Qed.
Print Assumptions c97_same_future.

(** A first half, a satellite message and part A; in another order and after a complete message. *)
Definition ex_mixed_history : history := [(ex_now, ex_first); (ex_now, ex_gsv1); (ex_now, ex_part_a)].
Definition ex_other_history : history :=
  [(ex_now, ex_whole); (ex_now, ex_part_a); (ex_now, ex_gsv1); (ex_now, ex_second); (ex_now, ex_first); (ex_now, ex_first)].
Definition ex_part_waits : parts := fun k => if N.eq_dec k 271041815 then Some ex_a else None.

Lemma ex_says_a : says true ex_now ex_part_a 271041815 ex_a.
Proof.
  apply (says_store true ex_now ex_part_a ex_a); [|split; reflexivity]. intros p. exact (part_a_step _ _ _ _ _ _ _ ex_part_a_is).
Qed.

Lemma ex_gsv1_message : gsv_message ex_gsv1 (lit "GP") 3 1 (ex_gsv_fields 1).
Proof. apply check_gsv_message; try (vm_compute; (reflexivity || discriminate || (split; reflexivity))). Qed.

Lemma ex_part_a_whole : one_fragment ex_part_a (lit "AI") (lit "VDM") (lit "H42O55i18tMET00000000000000").
Proof.
  apply (check_one_fragment _ _ _ (lit "A") _ [lit "2"]). apply check_vdm; [|reflexivity]. vm_compute. auto.
Qed.

Lemma ex_whole_no_vessel m v : ~ says true ex_now ex_whole m v.
Proof.
  apply says_not. intros p. rewrite (one_fragment_step _ _ _ _ _ _ _ ex_whole_one).
  destruct (decode_act true ex_now (lit "VDM") (ex_first_payload ++ ex_second_payload) (station_of_talker (lit "AI")))
    as [(r & E)|(bits & v' & E1 & _ & _ & E2 & _)]; [now rewrite E|].
  exfalso. vm_compute in E1. injection E1 as <-. vm_compute in E2. discriminate E2.
Qed.

Lemma ex_gsv1_no_vessel m v : ~ says true ex_now ex_gsv1 m v.
Proof.
  apply says_not. intros p. rewrite (gsv_message_step _ _ _ _ _ _ _ _ ex_gsv1_message). apply gsv_step_vsds.
Qed.

Lemma gsv_no_half s tt c n fields : gsv_message s tt c n fields ->
  forall tt' fff mid channel k x, ~ fragment s tt' fff mid channel k x.
Proof.
  intros (Hx & Hy) tt' fff mid channel k x Hf. eapply fragment_not_gsv; [exact Hf|]. exists fields. split; [exact Hx|exact Hy].
Qed.

Lemma half_no_gsv s tt fff mid channel k x : fragment s tt fff mid channel k x ->
  forall tt' c n fields, ~ gsv_message s tt' c n fields.
Proof. intros Hf tt' c n fields H. now apply (gsv_no_half _ _ _ _ _ H _ _ _ _ _ _ Hf). Qed.

Lemma whole_no_gsv s tt fff payload : one_fragment s tt fff payload -> forall tt' c n fields, ~ gsv_message s tt' c n fields.
Proof.
  intros (c0 & n0 & i0 & h0 & k0 & (more & Hv) & _) tt' c n fields (Hx & _). eapply vdm_not_gsv; eassumption.
Qed.

Example c97_example :
  let m := put no_halves (lit "VDM", 1, lit "A") (Some (1, ex_first_payload)) in
  let g := got no_messages (lit "GP", 3, 1) (ex_gsv_fields 1) in
  let w := ex_part_waits in
  (exists l ga pa, assembled no_halves ex_mixed_history l m /\ collected true no_messages ex_mixed_history ga g /\
     paired true no_parts l pa w) /\
  strings_count (after true ex_mixed_history new_parser) = 2%nat /\
  waits m g w (Text (fragment_key (lit "VDM") 1 (lit "A") 1)) (inl ex_first_payload) /\
  waits m g w (Vessel 271041815) (inr ex_a).
Proof.
  cbv zeta. split; [|split; [vm_compute; reflexivity|split; [now apply waits_half|now apply waits_part]]].
  do 3 eexists. split; [|split].
  - eapply assembled_wait; [exact ex_first_fragment|intros ? ? [=]|apply put_changed|].
    apply assembled_other; [exact (gsv_no_half _ _ _ _ _ ex_gsv1_message)|].
    apply assembled_other; [exact (part_whole _ _ _ _ ex_part_a_whole)|]. constructor.
  - apply collected_other; [exact (half_no_gsv _ _ _ _ _ _ _ ex_first_fragment)|].
    eapply (collected_wait true no_messages _ _ _ _ _ _ _ 2); [exact ex_gsv1_message|reflexivity|apply got_received|lia|reflexivity|].
    apply collected_other; [exact (whole_no_gsv _ _ _ _ ex_part_a_whole)|]. constructor.
  - apply paired_gap. apply paired_other; [exact ex_gsv1_no_vessel|].
    eapply (paired_first true no_parts ex_part_waits); [exact ex_says_a|reflexivity| |constructor].
    split; [reflexivity|]. intros k D. unfold ex_part_waits. now destruct (N.eq_dec k 271041815).
Qed.


Example c97_same_example : exists l1 m1 ga1 g1 pa1 w1 l2 m2 ga2 g2 pa2 w2,
  assembled no_halves ex_mixed_history l1 m1 /\ collected true no_messages ex_mixed_history ga1 g1 /\
  paired true no_parts l1 pa1 w1 /\
  assembled no_halves ex_other_history l2 m2 /\ collected true no_messages ex_other_history ga2 g2 /\
  paired true no_parts l2 pa2 w2 /\
  (forall k, m1 k = m2 k) /\ (forall k, g1 k = g2 k) /\ (forall k, w1 k = w2 k).
Proof.
  destruct c97_example as ((l1 & ga1 & pa1 & A1 & C1 & P1) & _). cbv zeta in A1, C1, P1.
  pose (k := (lit "VDM", 1, lit "A")).
  pose (m1 := put no_halves k (Some (2, ex_second_payload))). pose (m2 := put m1 k None).
  pose (m3 := put m2 k (Some (1, ex_first_payload))).
  do 7 eexists. exists m3. do 4 eexists. split; [exact A1|]. split; [exact C1|]. split; [exact P1|]. split; [|split; [|split]].
  - apply assembled_other; [exact (part_whole _ _ _ _ ex_whole_one)|]. apply assembled_other; [exact (part_whole _ _ _ _ ex_part_a_whole)|].
    apply assembled_other; [exact (gsv_no_half _ _ _ _ _ ex_gsv1_message)|].
    eapply (assembled_wait no_halves m1); [exact ex_second_fragment|intros ? ? [=]|apply put_changed|].
    eapply (assembled_join m1 m2); [exact ex_first_fragment|now apply (put_changed no_halves)|discriminate|exact ex_whole_one|apply put_changed|].
    eapply (assembled_wait m2 m3); [exact ex_first_fragment| |apply put_changed|constructor].
    intros n y. unfold m2, put. rewrite decide_True by reflexivity. discriminate.
  - apply collected_other; [exact (whole_no_gsv _ _ _ _ ex_whole_one)|]. apply collected_other; [exact (whole_no_gsv _ _ _ _ ex_part_a_whole)|].
    eapply (collected_wait true no_messages _ _ _ _ _ _ _ 2); [exact ex_gsv1_message|reflexivity|apply got_received|lia|reflexivity|].
    apply collected_other; [exact (half_no_gsv _ _ _ _ _ _ _ ex_second_fragment)|].
    apply collected_other; [exact (half_no_gsv _ _ _ _ _ _ _ ex_first_fragment)|].
    apply collected_other; [exact (half_no_gsv _ _ _ _ _ _ _ ex_first_fragment)|]. constructor.
  - apply paired_other; [exact ex_whole_no_vessel|].
    eapply (paired_first true no_parts ex_part_waits); [exact ex_says_a|reflexivity| |].
    { split; [reflexivity|]. intros n D. unfold ex_part_waits. now destruct (N.eq_dec n 271041815). }
    apply paired_other; [exact ex_gsv1_no_vessel|]. apply paired_gap. apply paired_other; [exact ex_whole_no_vessel|].
    apply paired_gap. constructor.
  - split; [|split; reflexivity]. intros c. unfold m3, m2, m1, put. fold k. now destruct (decide (c = k)).
Qed.
