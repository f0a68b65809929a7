(** C95: satellite groups over whole histories. *)
From stdpp Require Import gmap.
From Coq Require Import List NArith ZArith Bool String Lia Permutation.
From Verif Require Import Base Str F64 Chrono Types Util AisMod Vdm Gnss Parser
  SpecText SpecResult SpecAis SpecTime SpecState SpecGnss SpecMix SpecGroups StrFacts FrontFacts CallFacts ResultFacts
  BitFacts VdmFacts LayoutFacts StateFacts RunFacts PropFront PropAis PropState PropStatic PropGsv PropHist PropMix.
Import ListNotations.
Open Scope N_scope.
Local Opaque pick_string pick_u64 pick_i64 pick_eta parse_f64.

(** ** C95 *)

Definition collects (p : NmeaParser) (g : messages) : Prop :=
  forall tt c n, plain tt -> kept p (gsv_key tt c n) = option_map (gsv_text tt) (g (tt, c, n)).

(** Waiting messages come from sentences. *)
Definition genuine (g : messages) : Prop :=
  forall tt c n fields, g (tt, c, n) = Some fields -> exists s, gsv_message s tt c n fields.

Lemma gsv_message_plain s tt c n fields : gsv_message s tt c n fields -> plain tt.
Proof. intros (H & _). now apply gsv_with_plain in H. Qed.

Lemma collects_push p g g1 tt c n fields : plain tt -> collects p g -> received g tt c n fields g1 ->
  collects (push_string (gsv_key tt c n) (gsv_text tt fields) p) g1.
Proof.
  intros Ht H [R1 R2] tt' c' n' Hp. rewrite kept_push. destruct (decide _) as [E|E].
  - apply gsv_key_inj in E as (-> & -> & ->); [|assumption|assumption]. now rewrite R1.
  - rewrite R2; [now apply H|]. congruence.
Qed.

Lemma gsv_step_all ovf tt c n body p bodies :
  plain tt -> c < 2 ^ 32 - 1 ->
  (forall i, 1 <= i <= c -> kept (push_string (gsv_key tt c n) body p) (gsv_key tt c i) = Some (bodies i)) ->
  gsv_step ovf tt c n body p =
    (Ok (PsGsv (flat_map (fun i => gsv_blocks (nav_of_talker tt) (bodies i)) (numbers_to c))),
     snd (gsv_collect (nav_of_talker tt) (lit "$" ++ tt ++ lit "GSV") c (numbers_to c) (push_string (gsv_key tt c n) body p))).
Proof.
  intros Ht Hc K. unfold gsv_step. cbv zeta. rewrite gsv_range_numbers by exact Hc. set (q := push_string _ _ _) in *.
  assert (F : gsv_found (lit "$" ++ tt ++ lit "GSV") c (numbers_to c) q = c).
  { rewrite gsv_found_spec.
    assert (Fa : forall i, In i (numbers_to c) -> (match saved_fragments q !! gsv_key tt c i with Some _ => true | None => false end) = true).
    { intros i Hi. apply numbers_to_in in Hi. specialize (K i Hi). unfold kept in K. now rewrite K. }
    replace (List.filter _ (numbers_to c)) with (numbers_to c); [rewrite numbers_to_length; lia|].
    clear - Fa. induction (numbers_to c) as [|y l IH]; [reflexivity|]. cbn [List.filter]. rewrite (Fa y) by now left.
    f_equal. apply IH. intros i Hi. apply Fa. now right. }
  rewrite F, N.eqb_refl.
  pose proof (gsv_collect_reads (nav_of_talker tt) tt c (numbers_to c) q Ht (numbers_to_nodup c)) as R.
  destruct (gsv_collect _ _ _ _ q) as [v p2]. cbn [fst snd] in *. rewrite R. f_equal. f_equal. f_equal.
  rewrite !flat_map_concat_map. f_equal. apply map_ext_in. intros i Hi. apply numbers_to_in in Hi. now rewrite K.
Qed.

Lemma collects_collect nav tt c p g g1 : plain tt -> collects p g -> taken g tt c g1 ->
  collects (snd (gsv_collect nav (lit "$" ++ tt ++ lit "GSV") c (numbers_to c) p)) g1.
Proof.
  intros Ht H [T1 T2] tt' c' n' Hp.
  destruct (decide (tt' = tt /\ c' = c /\ 1 <= n' <= c)) as [(-> & -> & Hn)|D].
  - rewrite T1 by exact Hn. apply gsv_collect_deletes. now apply numbers_to_in.
  - rewrite T2; [|intros n Hn [= -> -> ->]; apply D; auto]. rewrite <- H by exact Hp. unfold kept.
    apply gsv_collect_writes. intros i Hi E. apply gsv_key_inj in E as (-> & -> & ->); [|assumption|assumption].
    apply D. apply numbers_to_in in Hi. auto.
Qed.

Lemma other_no_part ovf s p tt c n : (forall tt c n fields, ~ gsv_message s tt c n fields) -> plain tt ->
  ~ touches ovf s p (Text (gsv_key tt c n)).
Proof.
  intros H Ht T. apply (no_part_touches ovf s p tt c _ Ht) in T; [apply T; now exists n|].
  intros k (fields & A & B & C). apply (H tt c k fields). now split.
Qed.

Lemma collect_step ovf h l g g' p : collected ovf g h l g' -> genuine g -> collects p g ->
  answers l (results ovf h p) /\ collects (after ovf h p) g'.
Proof.
  intros H. revert p. induction H as [g|g now s h l g' Hs _ IH|g g1 now s tt c n fields k h l g' Hs Hc R Hk Hg _ IH
    |g g1 g2 now s tt c n fields nav all sats h l g' Hs Hc R Hall Hv Hsat T _ IH|g g1 now s tt n fields h l g' Hs R _ IH];
    intros p G C; [split; [constructor|exact C]|..].
  - rewrite results_cons, after_cons. destruct (IH (snd (parse_sentence ovf now s p)) G) as [E1 E2].
    + intros tt c n Ht. rewrite <- C by exact Ht. unfold kept. apply stored_text.
      apply call_writes. now apply other_no_part.
    + split; [|exact E2]. constructor; [discriminate|exact E1].
  - pose proof (gsv_message_plain _ _ _ _ _ Hs) as Ht.
    assert (G1 : genuine g1).
    { destruct R as [R1 R2]. intros tt' c' n' f'. destruct (decide ((tt', c', n') = (tt, c, n))) as [E|E].
      - injection E as -> -> ->. rewrite R1. intros [= <-]. now exists s.
      - rewrite R2 by exact E. apply G. }
    assert (E : parse_sentence ovf now s p = (Ok PsIncomplete, push_string (gsv_key tt c n) (gsv_text tt fields) p)).
    { rewrite (gsv_message_step ovf now s p tt c n fields Hs). apply (gsv_step_incomplete ovf tt c n _ p k Ht Hc Hk).
      - intros ->. destruct R as [R1 _]. congruence.
      - rewrite C by exact Ht. destruct R as [R1 R2]. rewrite <- R2; [now rewrite Hg|]. intros [= ->]. congruence. }
    rewrite results_cons, after_cons, E. cbn [fst snd].
    destruct (IH _ G1 (collects_push p g g1 tt c n fields Ht C R)) as [E1 E2]. split; [|exact E2].
    constructor; [|exact E1]. now intros ? [= <-].
  - pose proof (gsv_message_plain _ _ _ _ _ Hs) as Ht.
    assert (G1 : genuine g1).
    { destruct R as [R1 R2]. intros tt' c' n' f'. destruct (decide ((tt', c', n') = (tt, c, n))) as [E|E].
      - injection E as -> -> ->. rewrite R1. intros [= <-]. now exists s.
      - rewrite R2 by exact E. apply G. }
    assert (G2 : genuine g2).
    { destruct T as [T1 T2]. intros tt' c' n' f'. destruct (decide (tt' = tt /\ c' = c /\ 1 <= n' <= c)) as [(-> & -> & Hn)|D].
      - rewrite T1 by exact Hn. discriminate.
      - rewrite T2; [apply G1|]. intros m Hm [= -> -> ->]. apply D. auto. }
    pose proof (collects_push p g g1 tt c n fields Ht C R) as C1.
    eassert (E : parse_sentence ovf now s p = _).
    { rewrite (gsv_message_step ovf now s p tt c n fields Hs). change (join (_ :: fields)) with (gsv_text tt fields).
      apply (gsv_step_all ovf tt c n (gsv_text tt fields) p (fun i => gsv_text tt (all i)) Ht Hc).
      intros i Hi. rewrite C1 by exact Ht. now rewrite (Hall i Hi). }
    rewrite results_cons, after_cons, E. cbn [fst snd].
    destruct (IH _ G2 (collects_collect (nav_of_talker tt) tt c _ g1 g2 Ht C1 T)) as [E1 E2]. split; [|exact E2].
    constructor; [|exact E1]. intros ? [= <-]. f_equal. f_equal.
    rewrite !flat_map_concat_map. f_equal. apply map_ext_in. intros i Hi. apply numbers_to_in in Hi.
    eapply satellites_unique; [|exact (Hsat i Hi)]. rewrite (names_system_unique _ _ _ (names_system_nav tt) Hv).
    destruct (G1 _ _ _ _ (Hall i Hi)) as (s' & Hs'). eapply gsv_message_blocks. exact Hs'.
  - pose proof (gsv_message_plain _ _ _ _ _ Hs) as Ht.
    assert (G1 : genuine g1).
    { destruct R as [R1 R2]. intros tt' c' n' f'. destruct (decide ((tt', c', n') = (tt, 2 ^ 32 - 1, n))) as [E|E].
      - assert (tt' = tt /\ c' = 2 ^ 32 - 1 /\ n' = n) as (-> & -> & ->) by (split; [|split]; congruence). rewrite R1. intros [= <-]. now exists s.
      - rewrite R2 by exact E. apply G. }
    assert (E : parse_sentence ovf now s p =
      (if ovf then Panic else Ok PsIncomplete, push_string (gsv_key tt (2 ^ 32 - 1) n) (gsv_text tt fields) p)).
    { rewrite (gsv_message_step ovf now s p tt _ n fields Hs). unfold gsv_step. cbv zeta.
      change (join (_ :: fields)) with (gsv_text tt fields). destruct ovf; reflexivity. }
    rewrite results_cons, after_cons, E. cbn [fst snd].
    destruct (IH _ G1 (collects_push p g g1 tt (2 ^ 32 - 1) n fields Ht C R)) as [E1 E2]. split; [|exact E2].
    constructor; [|exact E1]. now intros ? [= <-].
Qed.

(** Whatever satellite messages are lost, repeated, reordered or mixed with other sentences: the answers are
    those of the collected history, and the messages kept are the ones that wait, with their fields. *)
Theorem c95_groups ovf h l g : collected ovf no_messages h l g ->
  answers l (results ovf h new_parser) /\
  forall tt c n, plain tt -> stored (after ovf h new_parser) (Text (gsv_key tt c n)) =
    option_map (fun fields => inl (join ((lit "$" ++ tt ++ lit "GSV") :: fields))) (g (tt, c, n)).
Proof.
  intros H. destruct (collect_step ovf h l _ _ new_parser H) as [E C].
  - discriminate.
  - intros tt c n _. reflexivity.
  - split; [exact E|]. intros tt c n Ht. specialize (C tt c n Ht).
    destruct (g (tt, c, n)) as [fields|]; cbn [option_map] in *; [now apply stored_kept|now apply stored_kept_none].
Qed.
Print Assumptions c95_groups.

Lemma gsv_step_changes ovf tt c n body p : plain tt -> body <> [] ->
  kept (snd (gsv_step ovf tt c n body p)) (gsv_key tt c n) <> Some [].
Proof.
  intros Ht Hb. unfold gsv_step. cbv zeta. set (q := push_string (gsv_key tt c n) body p).
  assert (Q : kept q (gsv_key tt c n) <> Some []).
  { unfold q. rewrite kept_push, decide_True by reflexivity. congruence. }
  destruct (gsv_range ovf c) as [range|]; [|exact Q]. destruct (_ =? c); [|exact Q].
  destruct (in_dec N.eq_dec n range) as [I|I].
  - pose proof (gsv_collect_deletes (nav_of_talker tt) tt c range q n I) as D.
    destruct (gsv_collect _ _ _ _ q) as [v p2]. cbn [snd] in *. now rewrite D.
  - assert (W : saved_fragments (snd (gsv_collect (nav_of_talker tt) (lit "$" ++ tt ++ lit "GSV") c range q)) !! gsv_key tt c n
      = saved_fragments q !! gsv_key tt c n).
    { apply gsv_collect_writes. intros i Hi E. apply gsv_key_inj in E as (_ & _ & ->); [contradiction|assumption|assumption]. }
    destruct (gsv_collect _ _ _ _ q) as [v p2]. cbn [snd] in *. unfold kept in *. now rewrite W.
Qed.

Lemma gsv_or_not s : (exists tt c n fields, gsv_message s tt c n fields) \/
  forall tt c n fields, ~ gsv_message s tt c n fields.
Proof.
  destruct (sentence_kind true ex_now s) as (f & K & Hf).
  destruct K as [r|tt fff payload Hs|tt fff mid channel a Hs|tt fff mid channel b Hs|tt c n body given (fields & A & B & C) Hb].
  - right. intros tt c n fields Hx. pose proof (gsv_message_plain _ _ _ _ _ Hx) as Ht.
    specialize (Hf (push_string (gsv_key tt c n) [] new_parser)).
    rewrite (gsv_message_step _ _ _ _ _ _ _ _ Hx) in Hf.
    apply (gsv_step_changes true tt c n (gsv_text tt fields) (push_string (gsv_key tt c n) [] new_parser) Ht).
    + unfold gsv_text. destruct fields; discriminate.
    + unfold gsv_text. rewrite Hf. cbn [snd]. rewrite kept_push. now rewrite decide_True.
  - right. intros tt' c n fields (Hx & _). destruct Hs as (c0 & n0 & i0 & h0 & k0 & (more & Hv) & _). eapply vdm_not_gsv; eassumption.
  - right. intros tt' c n fields (Hx & Hy). eapply fragment_not_gsv; [exact Hs|]. exists fields. split; [exact Hx|exact Hy].
  - right. intros tt' c n fields (Hx & Hy). eapply fragment_not_gsv; [exact Hs|]. exists fields. split; [exact Hx|exact Hy].
  - left. exists tt, c, n, fields. now split.
Qed.

(** Every history can be read this way. *)
Theorem c95_every_history ovf h : exists l g, collected ovf no_messages h l g.
Proof.
  assert (G : forall h g, genuine g -> exists l g', collected ovf g h l g').
  { clear h. induction h as [|[now s] h IH]; intros g G.
    - exists [], g. constructor.
    - destruct (gsv_or_not s) as [(tt & c & n & fields & Hs)|Hs].
      2:{ destruct (IH g G) as (l & g' & A). exists (None :: l), g'. now apply collected_other. }
      set (g1 := fun k => if decide (k = (tt, c, n)) then Some fields else g k).
      assert (R : received g tt c n fields g1).
      { split; [|intros k D]; unfold g1; [now rewrite decide_True|now rewrite decide_False]. }
      assert (G1 : genuine g1).
      { intros tt' c' n' f'. unfold g1. destruct (decide _) as [E|E]; [|apply G].
        injection E as -> -> ->. intros [= <-]. now exists s. }
      assert (L : c <= 2 ^ 32 - 1).
      { destruct Hs as (_ & [[_ ->]|[_ X]] & _); lia. }
      destruct (N.eq_dec c (2 ^ 32 - 1)) as [-> |D].
      { destruct (IH g1 G1) as (l & g' & A). exists (Some (if ovf then Panic else Ok PsIncomplete) :: l), g'.
        eapply collected_too_many; eassumption. }
      assert (Hc : c < 2 ^ 32 - 1) by lia.
      destruct (List.existsb (fun i => match g1 (tt, c, i) with Some _ => false | None => true end) (numbers_to c)) eqn:X.
      + apply existsb_exists in X as (k & Hk & Ek). apply numbers_to_in in Hk.
        destruct (IH g1 G1) as (l & g' & A). exists (Some (Ok PsIncomplete) :: l), g'.
        eapply (collected_wait ovf g g1 now s tt c n fields k); try eassumption.
        destruct (g1 (tt, c, k)); [discriminate|reflexivity].
      + set (all := fun k => match g1 (tt, c, k) with Some f => f | None => [] end).
        assert (Hall : forall k, 1 <= k <= c -> g1 (tt, c, k) = Some (all k)).
        { intros k Hk. unfold all. destruct (g1 (tt, c, k)) eqn:E; [reflexivity|].
          exfalso. rewrite <- not_true_iff_false in X. apply X. apply existsb_exists. exists k.
          rewrite E. split; [now apply numbers_to_in|reflexivity]. }
        set (sats := fun k => gsv_blocks (nav_of_talker tt) (gsv_text tt (all k))).
        set (g2 := fun k : str * N * N => let '(tt', c', i) := k in
          if decide (tt' = tt /\ c' = c /\ 1 <= i <= c) then None else g1 k).
        destruct (IH g2) as (l & g' & A).
        { intros tt' c' n' f'. unfold g2. destruct (decide _); [discriminate|apply G1]. }
        exists (Some (Ok (PsGsv (flat_map sats (numbers_to c)))) :: l), g'.
        eapply (collected_report ovf g g1 g2 now s tt c n fields (nav_of_talker tt) all sats); try eassumption.
        * apply names_system_nav.
        * intros k Hk. destruct (G1 _ _ _ _ (Hall k Hk)) as (s' & Hs'). eapply gsv_message_blocks. exact Hs'.
        * split.
          -- intros i Hi. unfold g2. rewrite decide_True; [reflexivity|]. auto.
          -- intros [[tt' c'] i] Hk. unfold g2. rewrite decide_False; [reflexivity|]. intros (-> & -> & Hi). now apply (Hk i Hi). }
  apply G. discriminate.
Qed.
Print Assumptions c95_every_history.

(** Message 3 arrives twice, the first time with another satellite; after the report a message 2 comes again. *)
Definition ex_stale3 : str := lit "$GPGSV,3,3,11,99,,,".
Definition ex_group_history : history :=
  [(ex_now, ex_stale3); (ex_now, ex_gsv3); (ex_now, ex_first); (ex_now, ex_gsv1); (ex_now, ex_gsv2); (ex_now, ex_gsv2)].
Definition got (g : messages) (k : str * N * N) (fields : list str) : messages :=
  fun k' => if decide (k' = k) then Some fields else g k'.

Lemma got_received g tt c n fields : received g tt c n fields (got g (tt, c, n) fields).
Proof. split; [|intros k D]; unfold got; [now rewrite decide_True|now rewrite decide_False]. Qed.

Example c95_example :
  let l := [Some (Ok PsIncomplete); Some (Ok PsIncomplete); None; Some (Ok PsIncomplete);
            Some (Ok (PsGsv (flat_map ex_gsv_sats (numbers_to 3)))); Some (Ok PsIncomplete)] in
  let g := got no_messages (lit "GP", 3, 2) (ex_gsv_fields 2) in
  collected true no_messages ex_group_history l g /\
  List.length (flat_map ex_gsv_sats (numbers_to 3)) = 11%nat /\
  results true ex_group_history new_parser =
    map (fun a => match a with Some r => r | None => Ok PsIncomplete end) l /\
  strings_count (after true ex_group_history new_parser) = 2%nat.
Proof.
  cbv zeta. split; [|split; [reflexivity|split; vm_compute; reflexivity]].
  pose proof ex_gsv_group as [_ F]. unfold ex_gsv_calls in F.
  apply Forall_cons_iff in F as [M3 F]. apply Forall_cons_iff in F as [M1 F]. apply Forall_cons_iff in F as [M2 _].
  cbn [fst snd] in M1, M2, M3.
  assert (M0 : gsv_message ex_stale3 (lit "GP") 3 3 (tl (split_on 44 ex_stale3))).
  { apply check_gsv_message; try (vm_compute; (reflexivity || discriminate || (split; reflexivity))). }
  pose (g0 := got no_messages (lit "GP", 3, 3) (tl (split_on 44 ex_stale3))).
  pose (g1 := got g0 (lit "GP", 3, 3) (ex_gsv_fields 3)).
  pose (g2 := got g1 (lit "GP", 3, 1) (ex_gsv_fields 1)).
  pose (g3 := got g2 (lit "GP", 3, 2) (ex_gsv_fields 2)).
  eapply (collected_wait true no_messages g0 _ _ _ _ _ _ 1); [exact M0|reflexivity|apply got_received|lia|reflexivity|].
  eapply (collected_wait true g0 g1 _ _ _ _ _ _ 1); [exact M3|reflexivity|apply got_received|lia|reflexivity|].
  apply collected_other.
  { intros tt c n fields (Hx & Hy). eapply fragment_not_gsv; [exact ex_first_fragment|]. exists fields. split; [exact Hx|exact Hy]. }
  eapply (collected_wait true g1 g2 _ _ _ _ _ _ 2); [exact M1|reflexivity|apply got_received|lia|reflexivity|].
  eapply (collected_report true g2 g3 no_messages _ _ _ _ _ _ NavGps ex_gsv_fields ex_gsv_sats);
    [exact M2|reflexivity|apply got_received| |left; right; left; reflexivity|exact ex_gsv_satellites| |].
  { intros k Hk. assert (E : k = 1 \/ k = 2 \/ k = 3) by lia. destruct E as [-> |[-> | ->]]; reflexivity. }
  { split; [reflexivity|]. intros k Hk. unfold g3, g2, g1, g0, got.
    rewrite !decide_False; [reflexivity|apply (Hk 3); lia|apply (Hk 3); lia|apply (Hk 1); lia|apply (Hk 2); lia]. }
  eapply (collected_wait true no_messages _ _ _ _ _ _ _ 1); [exact M2|reflexivity|apply got_received|lia|reflexivity|constructor].
Qed.
