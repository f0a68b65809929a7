(** C96: static reports over whole histories. *)
From stdpp Require Import gmap.
From Coq Require Import List NArith ZArith Bool String Lia.
From Verif Require Import Base Str F64 Chrono Types Util AisMod Vdm Gnss Parser
  SpecText SpecResult SpecAis SpecState SpecGnss SpecMerge SpecAssembly SpecGroups SpecPairs StrFacts FrontFacts CallFacts ResultFacts BitFacts VdmFacts
  StateFacts RunFacts PropFront PropState PropStatic PropAssembly.
Import ListNotations.
Open Scope N_scope.
Local Opaque pick_string pick_u64 pick_i64 pick_eta parse_f64.

(** ** C96 *)

Lemma prefers_unique {A} (f : VesselStaticData -> option A) v w d d' : prefers f v w d -> prefers f v w d' -> f d = f d'.
Proof.
  intros [H1 H2] [G1 G2]. destruct (f v) as [x|].
  - now rewrite (H1 x), (G1 x).
  - now rewrite H2, G2.
Qed.

Lemma merged_unique v w d d' : merged v w d -> merged v w d' -> d = d'.
Proof.
  intros H G. unfold merged in H, G. decompose record H. decompose record G. clear H G.
  assert (S : vsd_ship_type d = vsd_ship_type d').
  { assert (X : {vsd_ship_type v = ShNotAvailable} + {vsd_ship_type v <> ShNotAvailable}) by (destruct (vsd_ship_type v); (now left) || (right; discriminate)).
    destruct X as [X|X]; [transitivity (vsd_ship_type w)|transitivity (vsd_ship_type v)]; try (symmetry; auto; fail); auto. }
  assert (C : vsd_cargo_type d = vsd_cargo_type d').
  { assert (X : {vsd_cargo_type v = CaUndefined} + {vsd_cargo_type v <> CaUndefined}) by (destruct (vsd_cargo_type v); (now left) || (right; discriminate)).
    destruct X as [X|X]; [transitivity (vsd_cargo_type w)|transitivity (vsd_cargo_type v)]; try (symmetry; auto; fail); auto. }
  repeat match goal with P : prefers ?f v w d, Q : prefers ?f v w d' |- _ =>
    pose proof (prefers_unique f v w d d' P Q); clear P Q end.
  assert (E1 : vsd_mmsi d = vsd_mmsi d') by (etransitivity; [|symmetry]; eassumption).
  assert (E2 : vsd_own_vessel d = vsd_own_vessel d') by (etransitivity; [|symmetry]; eassumption).
  assert (E3 : vsd_ais_version_indicator d = vsd_ais_version_indicator d') by (etransitivity; [|symmetry]; eassumption).
  assert (E4 : vsd_ais_type d = vsd_ais_type d') by (etransitivity; [|symmetry]; eassumption).
  destruct d, d'. cbn in *. f_equal; assumption.
Qed.

Lemma merge_merged v w d : fresh_part v -> vsd_mmsi w = vsd_mmsi v -> merge v w = Ok d -> merged v w d.
Proof.
  intros Hfr Hwm Ed. unfold merge in Ed. repeat (destruct (negb _); [discriminate Ed|]). injection Ed as <-.
  unfold merged. cbn [vsd_mmsi vsd_ais_type vsd_own_vessel vsd_ship_type vsd_cargo_type vsd_ais_version_indicator].
  split; [reflexivity|]. split; [congruence|]. split; [apply Hfr|]. split; [reflexivity|]. split; [reflexivity|].
  assert (P : forall A (f : VesselStaticData -> option A) d, f d = choose_some (f v) (f w) -> prefers f v w d).
  { intros A f d E. unfold prefers. rewrite E. unfold choose_some. destruct (f v); split; congruence. }
  do 15 (split; [apply P; reflexivity|]).
  repeat split; intros X; try rewrite X; try reflexivity;
    [destruct (vsd_ship_type v); congruence|destruct (vsd_cargo_type v); congruence].
Qed.

(** A sentence that is no half either leaves all vessels alone or is one part. *)
Lemma part_or_not ovf now s : (forall tt fff mid channel n x, ~ fragment s tt fff mid channel n x) ->
  (forall p, saved_vsds (snd (parse_sentence ovf now s p)) = saved_vsds p) \/
  exists v, fresh_part v /\ forall p, parse_sentence ovf now s p = t24_store v p.
Proof.
  intros Hs. destruct (sentence_kind ovf now s) as (f & K & Hf).
  destruct K as [r|tt fff payload _|tt fff mid channel a Ha|tt fff mid channel b Hb|tt c n body given _ _].
  - left. intros p. now rewrite Hf.
  - destruct (decode_act ovf now fff payload (station_of_talker tt)) as [(r & E)|(bits & v & _ & _ & _ & _ & _ & Hfr & E)].
    + left. intros p. now rewrite Hf, E.
    + right. exists v. split; [exact Hfr|]. intros p. now rewrite Hf.
  - now apply Hs in Ha.
  - now apply Hs in Hb.
  - left. intros p. rewrite Hf. apply gsv_step_vsds.
Qed.

Lemma says_store ovf now s v m w : (forall p, parse_sentence ovf now s p = t24_store v p) ->
  says ovf now s m w <-> m = vsd_mmsi v /\ w = v.
Proof.
  intros H. unfold says. rewrite H. unfold t24_store, pull_vsd. cbn [new_parser saved_vsds saved_fragments].
  rewrite lookup_empty. cbn [snd]. unfold push_vsd. cbn [stored saved_vsds saved_fragments].
  destruct (N.eq_dec m (vsd_mmsi v)) as [-> |D].
  - rewrite lookup_insert. cbn. split; [intros E; injection E as <-; auto|intros [_ ->]; reflexivity].
  - rewrite lookup_insert_ne by congruence. rewrite lookup_delete_ne by congruence. rewrite lookup_empty. cbn.
    split; [discriminate|tauto].
Qed.

Lemma says_not ovf now s m w : (forall p, saved_vsds (snd (parse_sentence ovf now s p)) = saved_vsds p) -> ~ says ovf now s m w.
Proof. intros H. unfold says. cbn [stored]. rewrite H. cbn. rewrite lookup_empty. discriminate. Qed.

Definition knows (p : NmeaParser) (w : parts) : Prop := forall m, saved_vsds p !! m = w m.
Definition no_half_sentence (o : option (datetime * str)) : Prop :=
  match o with Some (_, s) => forall tt fff mid channel n x, ~ fragment s tt fff mid channel n x | None => True end.

Lemma assembled_whole m h l m' : assembled m h l m' -> Forall no_half_sentence l.
Proof.
  intros A. induction A as [|m now s h l m' Hs _ IH|m m1 now s tt fff mid channel n x h l m' _ _ _ _ IH
    |m m1 now s tt fff mid channel n x k y whole h l m' _ _ _ Hw _ _ IH]; constructor; try exact IH; cbn; auto.
  intros. eapply one_fragment_not_fragment. exact Hw.
Qed.

Lemma paired_step ovf l a w w' p : paired ovf w l a w' -> Forall no_half_sentence l -> vsds_ok p -> knows p w ->
  answers a (fst (replay ovf l p)) /\ knows (snd (replay ovf l p)) w'.
Proof.
  intros H. revert p. induction H as [w|w l a w' _ IH|w now s l a w' Hs _ IH|w w1 now s m v l a w' Hs Hw [C1 C2] _ IH
    |w w1 now s m v v0 d l a w' Hs Hw [C1 C2] Hd _ IH]; intros p Hl Hok K.
  - split; [constructor|exact K].
  - apply Forall_cons_iff in Hl as [_ Hl]. rewrite replay_none. destruct (IH p Hl Hok K) as [E1 E2]. cbn [fst snd].
    split; [|exact E2]. constructor; [discriminate|exact E1].
  - apply Forall_cons_iff in Hl as [Hn Hl]. rewrite replay_some. cbn [fst snd].
    destruct (IH (snd (parse_sentence ovf now s p)) Hl (call_vsds_ok _ _ _ _ Hok)) as [E1 E2].
    + intros m. destruct (part_or_not ovf now s Hn) as [E|(v & _ & E)]; [now rewrite E|].
      exfalso. apply (Hs (vsd_mmsi v) v). now apply (says_store ovf now s v).
    + split; [|exact E2]. constructor; [discriminate|exact E1].
  - apply Forall_cons_iff in Hl as [Hn Hl]. rewrite replay_some. cbn [fst snd].
    destruct (part_or_not ovf now s Hn) as [E|(v' & Hfr & E)]; [exfalso; eapply says_not; eassumption|].
    apply (says_store ovf now s v' m v E) in Hs as [-> ->].
    assert (Hp : saved_vsds p !! vsd_mmsi v' = None) by (rewrite K; exact Hw).
    destruct (IH (snd (parse_sentence ovf now s p)) Hl (call_vsds_ok _ _ _ _ Hok)) as [E1 E2].
    + intros m. rewrite E. unfold t24_store, pull_vsd. rewrite Hp. cbn [snd]. unfold push_vsd. cbn [saved_vsds].
      destruct (N.eq_dec m (vsd_mmsi v')) as [-> |D]; [now rewrite lookup_insert, C1|].
      rewrite lookup_insert_ne, lookup_delete_ne by congruence. now rewrite C2, K.
    + split; [|exact E2]. constructor; [|exact E1]. intros r [= <-]. rewrite E. unfold t24_store, pull_vsd. now rewrite Hp.
  - apply Forall_cons_iff in Hl as [Hn Hl]. rewrite replay_some. cbn [fst snd].
    destruct (part_or_not ovf now s Hn) as [E|(v' & Hfr & E)]; [exfalso; eapply says_not; eassumption|].
    apply (says_store ovf now s v' m v E) in Hs as [-> ->].
    assert (Hp : saved_vsds p !! vsd_mmsi v' = Some v0) by (rewrite K; exact Hw).
    destruct (Hok _ _ Hp) as [Hm Hfr0].
    destruct (IH (snd (parse_sentence ovf now s p)) Hl (call_vsds_ok _ _ _ _ Hok)) as [E1 E2].
    + intros m. rewrite E. unfold t24_store, pull_vsd. rewrite Hp. cbn [snd saved_vsds].
      destruct (N.eq_dec m (vsd_mmsi v')) as [-> |D]; [now rewrite lookup_delete, C1|].
      rewrite lookup_delete_ne by congruence. now rewrite C2, K.
    + split; [|exact E2]. constructor; [|exact E1]. intros r [= <-]. rewrite E. unfold t24_store, pull_vsd. rewrite Hp.
      destruct (merge_fresh v' v0 Hfr Hfr0 (eq_sym Hm)) as (d' & Ed). rewrite Ed. cbn [map_err bind fst].
      do 2 f_equal. eapply merged_unique; [|exact Hd]. now apply merge_merged.
Qed.

(** In every history, with any other sentences between, the static parts of each vessel are answered in
    pairs, and what is kept for a vessel is what the first of an open pair says. *)
Theorem c96_pairs ovf h l halves a w : assembled no_halves h l halves -> paired ovf no_parts l a w ->
  answers a (results ovf h new_parser) /\
  forall m, stored (after ovf h new_parser) (Vessel m) = option_map inr (w m).
Proof.
  intros A P. destruct (c94_assembly ovf h l halves A) as (E & Ag & _).
  destruct (paired_step ovf l a no_parts w new_parser P (assembled_whole _ _ _ _ A)) as [E1 E2].
  - intros m v H. cbn in H. now rewrite lookup_empty in H.
  - intros m. cbn. apply lookup_empty.
  - rewrite E. split; [exact E1|]. intros m. rewrite (Ag (Vessel m)).
    + cbn [stored]. rewrite E2. now destruct (w m).
    + intros fff mid channel n _ _. discriminate.
Qed.
Print Assumptions c96_pairs.

(** Every history can be read this way. *)
Theorem c96_every_history ovf h : exists l halves a w, assembled no_halves h l halves /\ paired ovf no_parts l a w.
Proof.
  destruct (c94_every_history h) as (l & halves & A). exists l, halves.
  assert (G : forall l w, Forall no_half_sentence l -> (forall m v, w m = Some v -> vsd_mmsi v = m /\ fresh_part v) ->
    exists a w', paired ovf w l a w').
  { clear. induction l as [|[[now s]|] l IH]; intros w Hl Hw.
    - exists [], w. constructor.
    - apply Forall_cons_iff in Hl as [Hn Hl]. destruct (part_or_not ovf now s Hn) as [E|(v & Hfr & E)].
      + destruct (IH w Hl Hw) as (a & w' & P). exists (None :: a), w'. apply paired_other; [|exact P].
        intros m v. now apply says_not.
      + pose proof (proj2 (says_store ovf now s v (vsd_mmsi v) v E) (conj eq_refl eq_refl)) as S.
        set (put := fun o m => if N.eq_dec m (vsd_mmsi v) then o else w m).
        assert (C : forall o, part_changed w (vsd_mmsi v) o (put o)).
        { intros o. split; [|intros k D]; unfold put; destruct (N.eq_dec _ _); congruence. }
        destruct (w (vsd_mmsi v)) as [v0|] eqn:Ew.
        * destruct (Hw _ _ Ew) as [Hm Hfr0]. destruct (merge_fresh v v0 Hfr Hfr0 (eq_sym Hm)) as (d & Ed).
          destruct (IH (put None) Hl) as (a & w' & P).
          { intros m x. unfold put. destruct (N.eq_dec _ _); [discriminate|apply Hw]. }
          exists (Some (Ok (PsVesselStaticData d)) :: a), w'.
          eapply paired_second; [exact S|exact Ew|apply C|now apply merge_merged|exact P].
        * destruct (IH (put (Some v)) Hl) as (a & w' & P).
          { intros m x. unfold put. destruct (N.eq_dec _ _) as [-> |]; [|apply Hw]. intros [= <-]. auto. }
          exists (Some (Ok PsIncomplete) :: a), w'. eapply paired_first; [exact S|exact Ew|apply C|exact P].
    - apply Forall_cons_iff in Hl as [_ Hl]. destruct (IH w Hl Hw) as (a & w' & P).
      exists (None :: a), w'. now apply paired_gap. }
  destruct (G l no_parts (assembled_whole _ _ _ _ A)) as (a & w & P); [discriminate|].
  exists a, w. auto.
Qed.
Print Assumptions c96_every_history.

(** Part B was lost: the two parts A are reported, and the following part B waits for another part. *)
Definition ex_pair_history : history :=
  [(ex_now, ex_part_a); (ex_now, ex_first); (ex_now, ex_part_a); (ex_now, ex_part_b); (ex_now, ex_second);
   (ex_now, ex_part_a)].
Definition ex_a : VesselStaticData := part_a_data false 271041815 (lit "PROGUY").
Definition ex_b : VesselStaticData := class_b_report false 271041815 [] 60 (lit "1D0") 12 199796 (lit "TC6163") 0 15 0 5.
Definition ex_a_b : VesselStaticData := class_b_report false 271041815 (lit "PROGUY") 60 (lit "1D0") 12 199796 (lit "TC6163") 0 15 0 5.

Lemma part_whole s tt fff payload : one_fragment s tt fff payload -> forall tt' fff' mid channel n x, ~ fragment s tt' fff' mid channel n x.
Proof. intros H tt' fff' mid channel n x. now apply (one_fragment_not_fragment _ _ _ _ _ _ _ _ _ _ H). Qed.

Example c96_example :
  let l := [Some (ex_now, ex_part_a); None; Some (ex_now, ex_part_a); Some (ex_now, ex_part_b); Some (ex_now, ex_whole);
            Some (ex_now, ex_part_a)] in
  let a := [Some (Ok PsIncomplete); None; Some (Ok (PsVesselStaticData ex_a)); Some (Ok PsIncomplete); None;
            Some (Ok (PsVesselStaticData ex_a_b))] in
  (exists halves, assembled no_halves ex_pair_history l halves) /\
  (exists w, paired true no_parts l a w /\ w 271041815 = None) /\
  map reported_name (results true ex_pair_history new_parser) =
    [None; None; Some (lit "PROGUY"); None; Some (lit "EVER DIADEM"); Some (lit "PROGUY")] /\
  results true [(ex_now, ex_part_a); (ex_now, ex_part_a); (ex_now, ex_part_b); (ex_now, ex_part_a)] new_parser =
    [Ok PsIncomplete; Ok (PsVesselStaticData ex_a); Ok PsIncomplete; Ok (PsVesselStaticData ex_a_b)].
Proof.
  cbv zeta. pose proof ex_part_a_is as (ta & ra & ca & xa & _ & _ & _ & _ & Oa).
  pose proof ex_part_b_is as (tb & rb & vb & cb & xb & _ & _ & _ & _ & _ & _ & _ & _ & _ & _ & _ & Ob).
  split; [|split; [|split; vm_compute; reflexivity]].
  - pose (k := (lit "VDM", 1, lit "A")). pose (m1 := put no_halves k (Some (1, ex_first_payload))). exists (put m1 k None).
    apply assembled_other; [exact (part_whole _ _ _ _ Oa)|].
    eapply (assembled_wait no_halves m1); [exact ex_first_fragment|intros ? ? [=]|apply put_changed|].
    apply assembled_other; [exact (part_whole _ _ _ _ Oa)|]. apply assembled_other; [exact (part_whole _ _ _ _ Ob)|].
    eapply (assembled_join m1 (put m1 k None));
      [exact ex_second_fragment|now apply (put_changed no_halves)|discriminate|exact ex_whole_one|apply put_changed|].
    apply assembled_other; [exact (part_whole _ _ _ _ Oa)|]. constructor.
  - assert (Sa : says true ex_now ex_part_a 271041815 ex_a).
    { apply (says_store true ex_now ex_part_a ex_a); [|split; reflexivity]. intros p. exact (part_a_step _ _ _ _ _ _ _ ex_part_a_is). }
    assert (Sb : says true ex_now ex_part_b 271041815 ex_b).
    { apply (says_store true ex_now ex_part_b ex_b); [|split; reflexivity]. intros p. exact (part_b_step _ _ _ _ _ _ _ _ _ _ _ _ _ _ _ ex_part_b_is). }
    assert (C : forall w o, part_changed w 271041815 o (fun m => if N.eq_dec m 271041815 then o else w m)).
    { intros w o. split; [|intros k D]; cbv beta; destruct (N.eq_dec _ _); congruence. }
    assert (F : fresh_part ex_a) by (repeat split).
    eexists. split.
    + eapply paired_first; [exact Sa|reflexivity|apply C|]. apply paired_gap.
      eapply paired_second; [exact Sa|reflexivity|apply C|apply merge_merged; [exact F|reflexivity|reflexivity]|].
      eapply paired_first; [exact Sb|reflexivity|apply C|].
      apply paired_other. { intros m v. apply says_not. intros p. rewrite (one_fragment_step _ _ _ _ _ _ _ ex_whole_one).
        destruct (decode_act true ex_now (lit "VDM") (ex_first_payload ++ ex_second_payload) (station_of_talker (lit "AI")))
          as [(r & E)|(bits & v' & E1 & _ & _ & E2 & _)]; [now rewrite E|].
        exfalso. vm_compute in E1. injection E1 as <-. vm_compute in E2. discriminate E2. }
      eapply paired_second; [exact Sa|reflexivity|apply C|apply merge_merged; [exact F|reflexivity|reflexivity]|].
      constructor.
    + reflexivity.
Qed.
