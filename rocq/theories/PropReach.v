(** C106: which parsers a parser can become. *)
From stdpp Require Import gmap.
From Coq Require Import List NArith ZArith Bool String Lia.
From Verif Require Import Base Str F64 Chrono Types Util AisMod Vdm Gnss Parser
  SpecText SpecResult SpecAis SpecMeasure SpecState SpecGnss SpecMerge SpecAssembly SpecGroups SpecPairs SpecWhole SpecDirect SpecStates SpecReach
  StrFacts FrontFacts CallFacts ResultFacts BitFacts VdmFacts
  StateFacts RunFacts PropFront PropAis PropState PropStatic PropGsv PropMix PropAssembly PropGroups PropPairs PropWhole PropMemory PropDirect PropStates.
Import ListNotations.
Open Scope N_scope.
Local Opaque pick_string pick_u64 pick_i64 pick_eta parse_f64.

Lemma text_inj a b : Text a = Text b -> a = b.
Proof. congruence. Qed.

Definition some_time : datetime := mk_datetime 2026 1 1 0 0 0 0.

(** ** Some sentences *)

Lemma half_sentence fff mid channel n payload : fff = lit "VDM" \/ fff = lit "VDO" -> mid < 2 ^ 64 ->
  plain channel -> plain payload -> n = 1 \/ n = 2 -> exists s, fragment s (lit "AI") fff mid channel n payload.
Proof.
  intros Hf Hm Hc Hp Hn.
  set (body := join ((lit "!" ++ lit "AI" ++ fff) :: [lit "2"; dec n; dec mid; channel; payload])).
  exists (body ++ lit "*" ++ nmea_checksum body), [lit "2"; dec n; dec mid; channel; payload], (lit "2"), (dec n), (dec mid). split.
  - split; [|split; [discriminate|split; [reflexivity|exact Hf]]].
    exists body, (nmea_checksum body). split; [right; split; [reflexivity|apply nmea_checksum_no_star]|].
    split; [now right|]. split; [discriminate|]. split; [|reflexivity].
    constructor; [destruct Hf as [-> | ->]; now apply plain_lit_dec|].
    constructor; [now apply plain_lit_dec|]. constructor; [apply dec_plain|]. constructor; [apply dec_plain|].
    constructor; [exact Hc|]. constructor; [exact Hp|constructor].
  - split; [reflexivity|]. split; [exact (dec_denotes 2)|]. split; [reflexivity|]. split; [apply dec_denotes|].
    split; [exact Hn|]. split; [reflexivity|]. split; [apply dec_denotes|]. auto.
Qed.

Lemma push_message ovf now r tt c n fields :
  utf8_bytes tt = 2%nat -> plain tt -> fields <> [] -> Forall plain fields ->
  count_field (nth 0 fields []) c -> count_field (nth 1 fields []) n ->
  (1 <= c < 2 ^ 32 - 1 -> exists k, 1 <= k <= c /\ k <> n /\ stored r (Text (gsv_key tt c k)) = None) ->
  exists s, snd (parse_sentence ovf now s r) = push_string (gsv_key tt c n) (join ((lit "$" ++ tt ++ lit "GSV") :: fields)) r.
Proof.
  intros Hu Ht Hne Hfs Hc Hn Hopen. set (body := join ((lit "$" ++ tt ++ lit "GSV") :: fields)).
  exists (body ++ lit "*" ++ nmea_checksum body).
  assert (G : gsv_message (body ++ lit "*" ++ nmea_checksum body) tt c n fields).
  { split; [|auto]. split; [|auto]. exists body, (nmea_checksum body).
    split; [right; split; [reflexivity|apply nmea_checksum_no_star]|]. split; [now right|].
    split; [discriminate|]. split; [|reflexivity]. constructor; [now apply gsv_type_plain|exact Hfs]. }
  rewrite (gsv_message_step ovf now _ _ tt c n fields G). fold body.
  destruct (N.eq_dec c 0) as [-> |C0]; [reflexivity|].
  assert (L : c <= 2 ^ 32 - 1) by (destruct Hc as [[_ ->]|[_ X]]; lia).
  destruct (N.eq_dec c (2 ^ 32 - 1)) as [-> |C1].
  { unfold gsv_step. cbv zeta. now destruct ovf. }
  destruct (Hopen ltac:(lia)) as (k & Hk & Hkn & Hnk).
  rewrite (gsv_step_incomplete ovf tt c n body r k Ht ltac:(lia) Hk Hkn); [reflexivity|].
  now apply stored_kept_none.
Qed.

(** ** Stray messages *)

(** Every entry that a parser can have is stray or not. *)
Lemma stray_or_not p e x : may_hold p e x -> stray_place e \/ ~ stray_place e.
Proof.
  intros [fff mid channel n payload Hf _ _ _ _ _|tt c n fields Hu Ht _ _ _ _ _|m v _].
  - right. intros (tt & c & k & _ & E & _). apply text_inj in E. now apply fragment_key_gsv_key in E.
  - assert (D : (n = 0 \/ c < n \/ c = 2 ^ 32 - 1) \/ ~ (n = 0 \/ c < n \/ c = 2 ^ 32 - 1)) by lia.
    destruct D as [D|D]; [left; now exists tt, c, n|right]. intros (tt' & c' & n' & Ht' & E & D').
    apply text_inj in E. apply gsv_key_inj in E as (-> & -> & ->); [contradiction|assumption|assumption].
  - right. intros (tt & c & k & _ & E & _). discriminate E.
Qed.

Lemma stray_step ovf now s p e : stray_place e -> stored p e <> None -> stored (snd (parse_sentence ovf now s p)) e <> None.
Proof.
  intros (tt & c & n & Ht & -> & D). apply stray_survives; [exact Ht|lia].
Qed.

Lemma stray_after ovf h p e : stray_place e -> stored p e <> None -> stored (after ovf h p) e <> None.
Proof.
  intros S. apply (run_invariant ovf (fun q => stored q e <> None)). intros now s q. now apply stray_step.
Qed.

Lemma list_some {A} (P Q : A -> Prop) l : (forall y, In y l -> P y \/ Q y) ->
  (exists y, In y l /\ P y) \/ (forall y, In y l -> Q y).
Proof.
  induction l as [|a l IH]; intros H; [right; contradiction|].
  destruct (H a (or_introl eq_refl)) as [Pa|Qa]; [left; exists a; split; [now left|exact Pa]|].
  destruct IH as [(y & Hy & Py)|IH]; [intros y Hy; apply H; now right|left; exists y; split; [now right|exact Py]|].
  right. intros y [<- |Hy]; [exact Qa|now apply IH].
Qed.

Lemma text_some (P : str -> Prop) p : (forall k x, stored p (Text k) = Some x -> P k \/ ~ P k) ->
  (exists k x, stored p (Text k) = Some (inl x) /\ ~ P k) \/ (forall k, stored p (Text k) <> None -> P k).
Proof.
  intros H.
  destruct (list_some (fun y : str * str => ~ P (fst y)) (fun y => P (fst y)) (map_to_list (saved_fragments p))) as [(y & Hy & Py)|Q].
  - intros [k x] Hk. apply elem_of_list_In, elem_of_map_to_list in Hk. cbn [fst].
    destruct (H k (inl x)) as [A|A]; [cbn; now rewrite Hk|now right|now left].
  - left. destruct y as [k x]. apply elem_of_list_In, elem_of_map_to_list in Hy. exists k, x. split; [cbn; now rewrite Hy|exact Py].
  - right. intros k Hk. destruct (saved_fragments p !! k) as [x|] eqn:E; [|cbn in Hk; rewrite E in Hk; now destruct Hk].
    apply (Q (k, x)). apply elem_of_list_In, elem_of_map_to_list. exact E.
Qed.

(** ** Emptying a parser *)

Lemma size_less (p q : NmeaParser) k : (forall k', stored q (Text k') <> None -> stored p (Text k') <> None) ->
  stored p (Text k) <> None -> stored q (Text k) = None ->
  (size (saved_fragments q) < size (saved_fragments p))%nat.
Proof.
  intros H Hp Hq. rewrite <- !size_dom. apply subset_size.
  assert (D : forall r k', k' ∈ dom (saved_fragments r) <-> stored r (Text k') <> None).
  { intros r k'. rewrite elem_of_dom. cbn. destruct (saved_fragments r !! k'); cbn; split; try discriminate; try (intros [? ?]; discriminate); [intros _; eauto|].
    intros X. now destruct X. }
  split.
  - intros k' Hk. apply D, H, D. exact Hk.
  - intros Hs. apply D in Hp. apply Hs in Hp. apply D in Hp. contradiction.
Qed.

(** One text that is no stray message can be removed, without adding texts. *)
Lemma remove_text ovf p k x : reachable ovf p -> stored p (Text k) = Some (inl x) -> ~ stray_place (Text k) ->
  exists h, stored (after ovf h p) (Text k) = None /\
    forall k', stored (after ovf h p) (Text k') <> None -> stored p (Text k') <> None.
Proof.
  intros Hr Hk Hs. pose proof (proj1 (c99_states ovf p) Hr _ _ Hk) as M.
  remember (Text k) as e eqn:Ee. destruct M as [fff mid channel n payload Hf Hm Hc Hp Hn Hnone|tt c n fields Hu Ht Hne Hfs Hc Hn Hopen|m v _]; [| |discriminate Ee].
  - assert (Hn' : 3 - n = 1 \/ 3 - n = 2) by lia.
    destruct (half_sentence fff mid channel (3 - n) [] Hf Hm Hc ltac:(intros []) Hn') as (s & F).
    exists [(some_time, s)]. rewrite after_cons. change (after ovf [] ?q) with q.
    assert (E : forall k', stored (snd (parse_sentence ovf some_time s p)) (Text k') =
       stored (without (fragment_key fff mid channel n) p) (Text k')).
    { intros k'. rewrite (fragment_vdm_step _ _ _ _ _ _ _ _ _ _ F). unfold first_step, second_step.
      apply stored_kept in Hk. apply stored_text.
      destruct Hn as [-> | ->]; [change (3 - 1 =? 1) with false|change (3 - 2 =? 1) with true]; cbv iota beta; rewrite Hk; apply decode_text. }
    apply text_inj in Ee. split.
    + rewrite E, stored_without. now destruct (decide _).
    + intros k'. rewrite E, stored_without. now destruct (decide _).
  - assert (R : 1 <= n <= c /\ c < 2 ^ 32 - 1).
    { assert (L : c <= 2 ^ 32 - 1) by (destruct Hc as [[_ ->]|[_ X]]; lia).
      assert (D : ~ (n = 0 \/ c < n \/ c = 2 ^ 32 - 1)); [|lia]. intros D. apply Hs. now exists tt, c, n. }
    destruct (c50_in_range_can_leave_partial ovf some_time p tt c Ht Hu ltac:(lia)) as (h & _ & A & B).
    exists h. split; [apply A; lia|]. intros k' Hk'.
    destruct (stored p (Text k')) as [y|] eqn:E; [discriminate|]. exfalso. apply Hk'.
    assert (O : (exists i, 1 <= i <= c /\ k' = gsv_key tt c i) \/ outside tt c (Text k')).
    { destruct (list_some (fun i => k' = gsv_key tt c i) (fun i => k' <> gsv_key tt c i) (numbers_to c)) as [(i & Hi & ->)|Q].
      - intros i _. destruct (decide (k' = gsv_key tt c i)); auto.
      - left. exists i. split; [now apply numbers_to_in|reflexivity].
      - right. intros i Hi F. apply text_inj in F. apply (Q i); [now apply numbers_to_in|exact F]. }
    destruct O as [(i & Hi & ->)|O]; [now apply A|]. now rewrite (B _ O).
Qed.

Lemma reachable_after ovf h p : reachable ovf p -> reachable ovf (after ovf h p).
Proof. intros (h0 & ->). exists (h0 ++ h). now rewrite after_app. Qed.

Lemma remove_texts ovf p : reachable ovf p -> exists h,
  (forall k, stored (after ovf h p) (Text k) <> None -> stray_place (Text k) /\ stored p (Text k) <> None).
Proof.
  remember (size (saved_fragments p)) as n eqn:En. revert p En.
  induction n as [n IH] using lt_wf_ind. intros p En Hr.
  destruct (text_some (fun k => stray_place (Text k)) p) as [(k & x & Hk & Hs)|All].
  - intros k x Hk. apply (stray_or_not p _ x). now apply (proj1 (c99_states ovf p) Hr).
  - destruct (remove_text ovf p k x Hr Hk Hs) as (h & A & B).
    destruct (IH (size (saved_fragments (after ovf h p)))) with (p := after ovf h p) as (h' & C).
    + subst n. apply (size_less _ _ k B); [rewrite Hk; discriminate|exact A].
    + reflexivity.
    + now apply reachable_after.
    + exists (h ++ h'). rewrite after_app. intros k' Hk'. destruct (C _ Hk') as [S D]. split; [exact S|now apply B].
  - exists []. intros k Hk. split; [now apply All|exact Hk].
Qed.

Lemma remove_vessel ovf p m v : static_part m v -> saved_vsds p !! m <> None ->
  exists s, snd (parse_sentence ovf some_time s p) = mk_parser (saved_fragments p) (delete m (saved_vsds p)).
Proof.
  intros (fff & bits & Hf & Hs) Hm. exists (encode_sentence (lit "AI") fff (lit "A") bits). specialize (Hs ovf some_time).
  assert (Hn : forall tt fff' mid channel n x, ~ fragment (encode_sentence (lit "AI") fff (lit "A") bits) tt fff' mid channel n x).
  { intros. eapply one_fragment_not_fragment.
    apply encode_sentence_one_fragment; [reflexivity|now apply plain_lit_dec|exact Hf|now apply plain_lit_dec]. }
  destruct (part_or_not ovf some_time _ Hn) as [E|(w & _ & E)]; [exfalso; eapply says_not; eassumption|].
  apply (says_store ovf some_time _ w m v E) in Hs as [-> ->]. rewrite E. unfold t24_store, pull_vsd.
  destruct (saved_vsds p !! vsd_mmsi w) as [w'|]; [reflexivity|now destruct Hm].
Qed.

Lemma remove_vessels ovf p : reachable ovf p -> exists h, after ovf h p = mk_parser (saved_fragments p) ∅.
Proof.
  remember (size (saved_vsds p)) as n eqn:En. revert p En. induction n as [|n IH]; intros p En Hr.
  - exists []. symmetry in En. apply map_size_empty_inv in En. destruct p as [f g]. cbn in *. now rewrite En.
  - assert (N0 : size (saved_vsds p) <> 0%nat) by lia. apply map_size_non_empty_iff, map_choose in N0 as (m & v & Hm).
    assert (S : static_part m v).
    { pose proof (proj1 (c99_states ovf p) Hr (Vessel m) (inr v)) as M.
      assert (M' := M ltac:(cbn; now rewrite Hm)). inversion M'; subst. assumption. }
    destruct (remove_vessel ovf p m v S) as (s & Hs); [rewrite Hm; discriminate|].
    destruct (IH (mk_parser (saved_fragments p) (delete m (saved_vsds p)))) as (h & Hh).
    + cbn. rewrite map_size_delete_Some by eauto. lia.
    + rewrite <- Hs. now apply reachable_step.
    + exists ((some_time, s) :: h). rewrite after_cons, Hs, Hh. reflexivity.
Qed.

Definition only_stray (p : NmeaParser) : Prop := forall e, stored p e <> None -> stray_place e.

Lemma empty_out ovf p : reachable ovf p -> exists h,
  only_stray (after ovf h p) /\ forall e, stored (after ovf h p) e <> None -> stored p e <> None.
Proof.
  intros Hr. destruct (remove_texts ovf p Hr) as (h & A).
  destruct (remove_vessels ovf (after ovf h p) (reachable_after ovf h p Hr)) as (h' & B).
  exists (h ++ h'). rewrite after_app, B.
  assert (C : forall e, stored (mk_parser (saved_fragments (after ovf h p)) ∅) e <> None ->
    exists k, e = Text k /\ stored (after ovf h p) (Text k) <> None).
  { intros [k|m] H; [now exists k|]. cbn in H. rewrite lookup_empty in H. now destruct H. }
  split; intros e H; destruct (C e H) as (k & -> & K); now apply A.
Qed.

(** ** Filling it *)

Lemma push_stray ovf p q k x : only_stray p -> may_hold q (Text k) (inl x) -> stray_place (Text k) ->
  exists s, snd (parse_sentence ovf some_time s p) = push_string k x p.
Proof.
  intros Hp M S. remember (Text k) as e eqn:Ee. remember (inl x) as y eqn:Ey.
  destruct M as [fff mid channel n payload|tt c n fields Hu Ht Hne Hfs Hc Hn Hopen|m v _]; [| |discriminate Ee].
  - exfalso. destruct S as (tt & c & k' & _ & E & _). apply text_inj in E. now apply fragment_key_gsv_key in E.
  - apply text_inj in Ee as <-. injection Ey as <-. apply push_message; try assumption. intros Hcc.
    assert (D : n = 0 \/ c < n).
    { destruct S as (tt' & c' & n' & Ht' & E & D). apply text_inj in E.
      apply gsv_key_inj in E as (-> & -> & ->); [lia|assumption|assumption]. }
    exists 1. split; [lia|]. split; [lia|]. destruct (stored p (Text (gsv_key tt c 1))) as [z|] eqn:E; [|reflexivity].
    exfalso. destruct (Hp (Text (gsv_key tt c 1))) as (tt' & c' & n' & Ht' & E' & D'); [rewrite E; discriminate|].
    apply text_inj in E'. apply gsv_key_inj in E' as (-> & -> & <-); [lia|assumption|assumption].
Qed.

Lemma fill_stray (ovf : bool) (p q : NmeaParser) (m : gmap str str) : only_stray p ->
  (forall k x, m !! k = Some x -> may_hold q (Text k) (inl x) /\ stray_place (Text k)) ->
  exists h, after ovf h p = mk_parser (m ∪ saved_fragments p) (saved_vsds p).
Proof.
  intros Hp. induction m as [|k x m Hk IH] using map_ind; intros H.
  - exists []. cbn. rewrite (left_id_L ∅ (∪)). now destruct p.
  - destruct IH as (h & Hh).
    { intros k' x' H'. apply H. rewrite lookup_insert_ne; [exact H'|]. intros ->. congruence. }
    set (r := mk_parser (m ∪ saved_fragments p) (saved_vsds p)) in *.
    assert (Hr : only_stray r).
    { intros [k'|v] Hs; [|exact (Hp (Vessel v) Hs)]. cbn in Hs.
      destruct (m !! k') as [y|] eqn:E.
      - apply (H k' y). rewrite lookup_insert_ne; [exact E|]. intros ->. congruence.
      - apply (Hp (Text k')). cbn. rewrite lookup_union_r in Hs by exact E. exact Hs. }
    destruct (H k x (lookup_insert m k x)) as [M S]. destruct (push_stray ovf r q k x Hr M S) as (s & Hs).
    exists (h ++ [(some_time, s)]). rewrite after_app, Hh, after_cons, Hs. cbn.
    unfold push_string. cbn. f_equal. now rewrite insert_union_l.
Qed.

Lemma fill_up ovf p q : only_stray p -> (forall e x, stored q e = Some x -> may_hold q e x) ->
  (forall e, stored p e <> None -> stored q e <> None) -> exists h, after ovf h p = q.
Proof.
  intros Hp. remember (entries q) as n eqn:En. revert q En. induction n as [n IH] using lt_wf_ind. intros q En Hq Hpq.
  assert (Step : forall e x, stored q e = Some x -> ~ stray_place e -> exists h, after ovf h p = q).
  { intros e x He Hs. pose proof (entries_removed e q x He) as L.
    destruct (IH (entries (removed e q)) ltac:(lia) (removed e q) eq_refl) as (h & Hh).
    - intros e' x' He'. apply may_hold_removed, Hq. rewrite stored_removed in He'. now destruct (decide _).
    - intros e' He'. rewrite stored_removed. destruct (decide _) as [-> |]; [|now apply Hpq]. exfalso. now apply Hs, Hp.
    - destruct (entry_sentence ovf some_time q e x (Hq _ _ He) He) as (s & Es).
      exists (h ++ [(some_time, s)]). now rewrite after_app, Hh, after_cons, Es. }
  destruct (text_some (fun k => stray_place (Text k)) q) as [(k & x & Hk & Hs)|All].
  - intros k x Hk. apply (stray_or_not q _ x). now apply Hq.
  - now apply (Step (Text k) (inl x)).
  - destruct (decide (saved_vsds q = ∅)) as [E0|E0].
    + destruct (fill_stray ovf p q (saved_fragments q) Hp) as (h & Hh).
      * intros k x Hk. assert (K : stored q (Text k) = Some (inl x)) by (cbn; now rewrite Hk).
        split; [now apply Hq|]. apply All. rewrite K. discriminate.
      * exists h. rewrite Hh. apply stored_ext. intros [k|m]; cbn [stored saved_fragments saved_vsds].
        -- f_equal. destruct (saved_fragments q !! k) as [x|] eqn:E; [now apply lookup_union_Some_l|].
           rewrite lookup_union_r by exact E. destruct (saved_fragments p !! k) as [y|] eqn:E'; [|reflexivity].
           exfalso. apply (Hpq (Text k)); cbn; [rewrite E'; discriminate|now rewrite E].
        -- f_equal. rewrite E0, lookup_empty. destruct (saved_vsds p !! m) as [y|] eqn:E'; [|reflexivity].
           exfalso. apply (Hpq (Vessel m)); cbn; [rewrite E'; discriminate|now rewrite E0, lookup_empty].
    + apply map_choose in E0 as (m & v & Hm). apply (Step (Vessel m) (inr v)); [cbn; now rewrite Hm|].
      intros (tt & c & k & _ & E & _). discriminate E.
Qed.

(** ** C106 *)

(** From every parser there can be, sentences lead to every other that there can be and that keeps something in each
    place of a stray satellite message where the first does; and to no other. *)
Theorem c106_from_to ovf p q : reachable ovf p -> reachable ovf q ->
  ((exists h, after ovf h p = q) <-> forall e, stray_place e -> stored p e <> None -> stored q e <> None).
Proof.
  intros Hp Hq. split.
  - intros (h & <-) e. apply stray_after.
  - intros H. destruct (empty_out ovf p Hp) as (h & A & B).
    destruct (fill_up ovf (after ovf h p) q A (proj1 (c99_states ovf q) Hq)) as (h' & E).
    + intros e He. apply H; [now apply A|now apply B].
    + exists (h ++ h'). now rewrite after_app.
Qed.
Print Assumptions c106_from_to.

(** A parser without stray messages can become like new. *)
Theorem c106_like_new ovf p : reachable ovf p ->
  ((exists h, after ovf h p = new_parser) <-> forall e, stray_place e -> stored p e = None).
Proof.
  intros Hp. rewrite (c106_from_to ovf p new_parser Hp (ex_intro _ [] eq_refl)).
  assert (N : forall e, stored new_parser e = None) by (intros [k|m]; cbn; now rewrite lookup_empty).
  split; intros H e S.
  - destruct (stored p e) as [x|] eqn:E; [|reflexivity]. exfalso. apply (H e S); [now rewrite E|apply N].
  - intros K. now rewrite (H e S) in K.
Qed.
Print Assumptions c106_like_new.

(** The shortest history that leads to a parser has as many sentences as the parser has entries. *)
Theorem c99_shortest ovf p : reachable ovf p ->
  (exists h, List.length h = (strings_count p + vsds_count p)%nat /\ after ovf h new_parser = p) /\
  (forall h, after ovf h new_parser = p -> (strings_count p + vsds_count p <= List.length h)%nat).
Proof.
  intros Hr. split.
  - change (strings_count p + vsds_count p)%nat with (entries p). pose proof (proj1 (c99_states ovf p) Hr) as H. clear Hr.
    remember (entries p) as n eqn:En. revert p En H. induction n as [|n IH]; intros p En H.
    + exists []. split; [reflexivity|]. symmetry. apply no_entries. intros e. destruct (stored p e) as [x|] eqn:E; [|reflexivity].
      pose proof (entries_removed e p x E). lia.
    + destruct (some_entry p ltac:(lia)) as (e & x & He).
      destruct (entry_sentence ovf some_time p e x (H _ _ He) He) as (s & Hs).
      destruct (IH (removed e p)) as (h & L & Hh).
      * pose proof (entries_removed e p x He). lia.
      * intros e' x' He'. apply may_hold_removed, H. rewrite stored_removed in He'. now destruct (decide _).
      * exists (h ++ [(some_time, s)]). rewrite app_length, L. split; [cbn; lia|]. now rewrite after_app, Hh, after_cons, Hs.
  - intros h <-. exact (c51_at_most_one_per_call ovf h new_parser).
Qed.
Print Assumptions c99_shortest.

(** A parser that keeps half of a message can become like new and can become [ex_kept]; that one keeps a message of
    a group that announces none and will never be like new again. *)
Example c106_example :
  let p := after true [(ex_now, lit "!AIVDM,2,1,7,B,1w")] new_parser in
  stored p (Text (fragment_key (lit "VDM") 7 (lit "B") 1)) = Some (inl (lit "1w")) /\
  (exists h, after true h p = new_parser) /\ (exists h, after true h p = ex_kept) /\
  ~ (exists h, after true h ex_kept = new_parser) /\ ~ (exists h, after true h ex_kept = p).
Proof.
  cbv zeta. set (p := after true _ new_parser).
  assert (E : p = push_string (fragment_key (lit "VDM") 7 (lit "B") 1) (lit "1w") new_parser).
  { assert (A : saved_fragments p = <[fragment_key (lit "VDM") 7 (lit "B") 1 := lit "1w"]> ∅) by (apply (bool_decide_eq_true_1 _); vm_compute; reflexivity).
    assert (B : saved_vsds p = ∅) by (apply map_empty; intros m; reflexivity).
    destruct p as [f g]. cbn [saved_fragments saved_vsds] in A, B. now rewrite A, B. }
  assert (Hp : reachable true p) by (eexists; reflexivity).
  assert (S : forall e, stray_place e -> stored p e = None).
  { intros e (tt & c & n & _ & -> & _). rewrite E, stored_push. destruct (decide _) as [D|_].
    - apply text_inj in D. symmetry in D. now apply fragment_key_gsv_key in D.
    - cbn. now rewrite lookup_empty. }
  assert (S9 : stray_place (Text (gsv_key (lit "GP") 0 9))).
  { exists (lit "GP"), 0, 9. split; [now apply plain_lit_dec|]. split; [reflexivity|]. right. now left. }
  assert (K9 : stored ex_kept (Text (gsv_key (lit "GP") 0 9)) <> None) by (vm_compute; discriminate).
  split; [rewrite E, stored_push; now destruct (decide _)|].
  split; [now apply c106_like_new|]. split; [|split].
  - apply c106_from_to; [exact Hp|apply c99_example|]. intros e H K. now rewrite (S e H) in K.
  - intros H. pose proof (proj1 (c106_like_new true ex_kept (proj1 c99_example)) H) as L. exact (K9 (L _ S9)).
  - intros H. pose proof (proj1 (c106_from_to true ex_kept p (proj1 c99_example) Hp) H) as L. exact (L _ S9 K9 (S _ S9)).
Qed.

(** Three entries, three sentences. *)
Example c99_shortest_example : (exists h, List.length h = 3%nat /\ after true h new_parser = ex_kept) /\
  forall h, after true h new_parser = ex_kept -> (3 <= List.length h)%nat.
Proof. exact (c99_shortest true ex_kept (proj1 c99_example)). Qed.
