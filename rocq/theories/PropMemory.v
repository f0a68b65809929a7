(** C87: streams that follow the standards need bounded memory. *)
From stdpp Require Import gmap.
From Coq Require Import List NArith ZArith Bool String Lia Permutation.
From Verif Require Import Base Str F64 Chrono Types Util AisMod Vdm Gnss Parser
  SpecText SpecResult SpecAis SpecTime SpecState SpecGnss SpecPanic SpecHist SpecMemory
  StrFacts FrontFacts CallFacts ResultFacts BitFacts VdmFacts StateFacts RunFacts
  PropFront PropBits PropState PropGsv PropHist.
Import ListNotations.
Open Scope N_scope.
Local Opaque pick_string pick_u64 pick_i64 pick_eta parse_f64 be_value.

(** ** A complete group is never kept *)

Definition open_groups (p : NmeaParser) : Prop :=
  forall tt c, plain tt -> 1 <= c < 2 ^ 32 - 1 -> exists i, 1 <= i <= c /\ kept p (gsv_key tt c i) = None.

Lemma filter_le {A} (f : A -> bool) l : (List.length (List.filter f l) <= List.length l)%nat.
Proof. induction l as [|y l IH]; [reflexivity|]. cbn [List.filter]. destruct (f y); cbn [List.length]; lia. Qed.

Lemma filter_some_left {A} (f : A -> bool) l x :
  In x l -> f x = false -> (S (List.length (List.filter f l)) <= List.length l)%nat.
Proof.
  intros Hx Hf. induction l as [|y l IH]; [destruct Hx|]. cbn [List.filter]. destruct Hx as [-> |Hx].
  - rewrite Hf. cbn [List.length]. pose proof (filter_le f l). lia.
  - specialize (IH Hx). destruct (f y); cbn [List.length]; lia.
Qed.

Lemma call_open_groups ovf now s p : open_groups p -> open_groups (snd (parse_sentence ovf now s p)).
Proof.
  intros H. destruct (sentence_kind ovf now s) as (f & K & ->).
  destruct K as [r|tt fff payload Hs|tt fff mid channel a Hs|tt fff mid channel b Hs|tt c n body given Hs Hb].
  - exact H.
  - intros tt' c' Hp Hc. destruct (H tt' c' Hp Hc) as (i & Hi & E). exists i. split; [exact Hi|]. now rewrite decode_text.
  - intros tt' c' Hp Hc. destruct (H tt' c' Hp Hc) as (i & Hi & E). exists i. split; [exact Hi|].
    unfold first_step. destruct (kept p (fragment_key fff mid channel 2)) as [b|].
    + rewrite decode_text, kept_without. destruct (decide _); [reflexivity|exact E].
    + cbn [snd]. rewrite kept_push, decide_False; [exact E|]. intros D. symmetry in D. revert D. apply fragment_key_gsv_key.
  - intros tt' c' Hp Hc. destruct (H tt' c' Hp Hc) as (i & Hi & E). exists i. split; [exact Hi|].
    unfold second_step. destruct (kept p (fragment_key fff mid channel 1)) as [a|].
    + rewrite decode_text, kept_without. destruct (decide _); [reflexivity|exact E].
    + cbn [snd]. rewrite kept_push, decide_False; [exact E|]. intros D. symmetry in D. revert D. apply fragment_key_gsv_key.
  - assert (Ht : plain tt) by (destruct Hs as (g & Hg & _); now apply gsv_with_plain in Hg).
    intros tt' c' Hp Hc. destruct (decide (tt' = tt /\ c' = c)) as [[-> ->]|D].
    + unfold gsv_step. cbv zeta. set (q := push_string (gsv_key tt c n) body p).
      assert (R : gsv_range ovf c = Some (numbers_to c)).
      { unfold gsv_range. replace (c <? u32_max) with true; [reflexivity|]. symmetry. apply N.ltb_lt. unfold u32_max. lia. }
      rewrite R. destruct (N.eqb_spec (gsv_found (lit "$" ++ tt ++ lit "GSV") c (numbers_to c) q) c) as [E|E].
      * exists 1. split; [lia|].
        assert (I1 : In 1 (numbers_to c)) by (apply numbers_to_in; lia).
        pose proof (gsv_collect_deletes (nav_of_talker tt) tt c (numbers_to c) q 1 I1) as G.
        destruct (gsv_collect (nav_of_talker tt) _ c (numbers_to c) q) as [v p2]. exact G.
      * cbn [snd]. rewrite gsv_found_spec in E.
        destruct (List.existsb (fun i => match kept q (gsv_key tt c i) with Some _ => false | None => true end) (numbers_to c)) eqn:X.
        -- apply existsb_exists in X as (i & Hi & Ei). exists i. split; [now apply numbers_to_in|].
           destruct (kept q (gsv_key tt c i)); [discriminate|reflexivity].
        -- exfalso. apply E.
           assert (F : List.filter (fun i => match saved_fragments q !! gsv_key tt c i with Some _ => true | None => false end) (numbers_to c) = numbers_to c).
           { assert (Fa : forall i, In i (numbers_to c) -> (match saved_fragments q !! gsv_key tt c i with Some _ => true | None => false end) = true).
             { intros i Hi. destruct (saved_fragments q !! gsv_key tt c i) eqn:Y; [reflexivity|].
               exfalso. rewrite <- not_true_iff_false in X. apply X. apply existsb_exists. exists i. split; [exact Hi|].
               unfold kept. now rewrite Y. }
             clear - Fa. induction (numbers_to c) as [|y l IH]; [reflexivity|]. cbn [List.filter]. rewrite (Fa y) by now left.
             f_equal. apply IH. intros i Hi. apply Fa. now right. }
           rewrite F. unfold numbers_to. rewrite map_length, seq_length. lia.
    + destruct (H tt' c' Hp Hc) as (i & Hi & E). exists i. split; [exact Hi|]. unfold kept.
      rewrite gsv_step_writes; [exact E|]. intros j X. apply gsv_key_inj in X as (-> & -> & _); [|assumption|assumption]. apply D. now split.
Qed.

Lemma reachable_open_groups ovf h : open_groups (after ovf h new_parser).
Proof.
  apply (run_invariant ovf open_groups).
  - intros now s q. apply call_open_groups.
  - intros tt c _ Hc. exists 1. split; [lia|]. unfold kept. cbn [saved_fragments new_parser]. apply lookup_empty.
Qed.

(** ** Counting *)

Lemma size_le_list {A} (m : gmap str A) (l : list str) :
  (forall k, m !! k <> None -> In k l) -> (size m <= List.length l)%nat.
Proof.
  intros H. unfold size, map_size. rewrite <- (map_length fst).
  apply List.NoDup_incl_length.
  - apply NoDup_ListNoDup. apply NoDup_fst_map_to_list.
  - intros k Hk. apply in_map_iff in Hk as ([k' v] & <- & Hv). apply elem_of_list_In, elem_of_map_to_list in Hv.
    apply H. cbn [fst]. congruence.
Qed.

Definition message_names : list (str * N * str) :=
  list_prod (list_prod [lit "VDM"; lit "VDO"] (0 :: numbers_to 9)) radio_channels.

(** The only half of a message that can be waiting. *)
Definition half_key (p : NmeaParser) (m : str * N * str) : str :=
  let '(fff, mid, channel) := m in
  match kept p (fragment_key fff mid channel 1) with
  | Some _ => fragment_key fff mid channel 1
  | None => fragment_key fff mid channel 2
  end.

Definition group_keys (p : NmeaParser) (tt : str) (c : N) : list str :=
  List.filter (fun k => match kept p k with Some _ => true | None => false end) (map (gsv_key tt c) (numbers_to c)).

Definition key_list (p : NmeaParser) (talkers : list str) : list str :=
  map (half_key p) message_names ++ flat_map (fun tt => flat_map (group_keys p tt) (numbers_to 9)) talkers.

Lemma group_keys_length p tt c : open_groups p -> plain tt -> In c (numbers_to 9) ->
  (S (List.length (group_keys p tt c)) <= N.to_nat c)%nat.
Proof.
  intros Ho Hp Hc. apply numbers_to_in in Hc. destruct (Ho tt c Hp) as (i & Hi & E); [lia|].
  eapply Nat.le_trans; [apply (filter_some_left _ _ (gsv_key tt c i))|].
  - apply in_map, numbers_to_in, Hi.
  - now rewrite E.
  - rewrite map_length. unfold numbers_to. rewrite map_length, seq_length. lia.
Qed.

Lemma key_list_length p talkers : open_groups p -> Forall plain talkers ->
  (List.length (key_list p talkers) <= 100 + 36 * List.length talkers)%nat.
Proof.
  intros Ho Hp. unfold key_list. rewrite app_length, map_length.
  assert (M : List.length message_names = 100%nat) by (vm_compute; reflexivity). rewrite M. apply Nat.add_le_mono_l.
  induction talkers as [|tt talkers IH]; [cbn; lia|]. apply Forall_cons_1 in Hp as [Ht Hp]. specialize (IH Hp).
  cbn [flat_map]. rewrite app_length.
  assert (L : (List.length (flat_map (group_keys p tt) (numbers_to 9)) <= 36)%nat).
  { assert (B : forall c, In c (numbers_to 9) -> (List.length (group_keys p tt c) <= N.to_nat c - 1)%nat).
    { intros c Hc. pose proof (group_keys_length p tt c Ho Ht Hc). lia. }
    change (numbers_to 9) with [1; 2; 3; 4; 5; 6; 7; 8; 9] in *. cbn [flat_map]. rewrite !app_length.
    repeat match goal with |- context [group_keys p tt ?c] =>
      let X := fresh in assert (X : (List.length (group_keys p tt c) <= N.to_nat c - 1)%nat) by (apply B; cbn [In]; lia);
      generalize dependent (List.length (group_keys p tt c)); intros end.
    cbn [List.length]. lia. }
  cbn [List.length]. lia.
Qed.

(** A parser fed with conforming sentences keeps at most one text for each of the 100 combinations of
    formatter, message identification and channel and 36 for each talker of satellite groups, however
    many sentences it gets and however many of them are lost. *)
Theorem c87_texts ovf h talkers :
  Forall (fun x => conforming talkers (snd x)) h -> Forall plain talkers ->
  (strings_count (after ovf h new_parser) <= 100 + 36 * List.length talkers)%nat.
Proof.
  intros Hh Ht. set (p := after ovf h new_parser).
  eapply Nat.le_trans; [|apply (key_list_length p); [apply reachable_open_groups|exact Ht]].
  unfold strings_count. apply size_le_list. intros k Hk.
  assert (exists v, stored p (Text k) = Some v) as (v & Hv).
  { cbn [stored]. destruct (saved_fragments p !! k); [eexists; reflexivity|congruence]. }
  pose proof Hv as Hv0. apply c65_pending_was_received in Hv as (h1 & now & s & h2 & E & B & _).
  assert (C : conforming talkers s).
  { rewrite List.Forall_forall in Hh. apply (Hh (now, s)). rewrite E. apply in_or_app. right. now left. }
  destruct C as [C1 C2]. apply in_or_app.
  inversion B as [tt fff mid channel n payload F W|tt c n body given G Hb|]; subst.
  - left. destruct (C1 _ _ _ _ _ _ F) as [Hm Hc]. pose proof (fragment_formatter _ _ _ _ _ _ _ F) as Hf.
    pose proof (fragment_number _ _ _ _ _ _ _ F) as Hn.
    apply in_map_iff. exists (fff, mid, channel). split.
    + cbn [half_key]. destruct (kept p (fragment_key fff mid channel 1)) as [a|] eqn:K1.
      * destruct Hn as [-> | ->]; [reflexivity|]. exfalso.
        apply (c13_at_most_one_half ovf p fff mid channel a payload); [eexists; reflexivity|exact Hf|].
        split; [|exact Hv0]. unfold waiting. cbn [stored]. unfold kept in K1. now rewrite K1.
      * destruct Hn as [-> | ->]; [|reflexivity]. exfalso. apply Hk. exact K1.
    + apply in_prod; [apply in_prod|exact Hc].
      * destruct Hf as [-> | ->]; [now left|right; now left].
      * destruct (N.eq_dec mid 0) as [-> |Hm0]; [now left|right]. apply numbers_to_in. lia.
  - right. destruct (C2 _ _ _ G) as (Htt & Hn & Hc). apply in_flat_map. exists tt. split; [exact Htt|].
    apply in_flat_map. exists c. split; [apply numbers_to_in; lia|]. apply List.filter_In. split.
    + apply in_map, numbers_to_in. exact Hn.
    + unfold kept. destruct (saved_fragments p !! gsv_key tt c n); [reflexivity|congruence].
Qed.
Print Assumptions c87_texts.

(** And at most one record for each vessel that sends static data. *)
Theorem c87_vessels ovf h vessels :
  static_data_from ovf vessels h -> (vsds_count (after ovf h new_parser) <= List.length vessels)%nat.
Proof.
  intros Hv. unfold vsds_count. unfold size, map_size. rewrite <- (map_length fst).
  apply List.NoDup_incl_length; [apply NoDup_ListNoDup, NoDup_fst_map_to_list|].
  intros m Hm. apply in_map_iff in Hm as ([m' d] & <- & Hd). apply elem_of_list_In, elem_of_map_to_list in Hd. cbn [fst].
  assert (S : stored (after ovf h new_parser) (Vessel m') = Some (inr d)) by (cbn [stored]; now rewrite Hd).
  apply c65_pending_was_received in S as (h1 & now & s & h2 & E & B & _).
  inversion B as [| |tt fff payload d' C P N]; subst. destruct P as (P1 & P2 & _). rewrite P2.
  exact (Hv h1 now s h2 tt fff payload eq_refl C P1).
Qed.
Print Assumptions c87_vessels.

(** Half of a message and two messages of a satellite group. *)
Example c87_example :
  conforming [lit "GP"] ex_first /\ conforming [lit "GP"] ex_gsv3 /\ conforming [lit "GP"] ex_gsv2 /\
  strings_count (after true [(ex_now, ex_first); (ex_now, ex_gsv3); (ex_now, ex_gsv2); (ex_now, ex_gsv3)] new_parser) = 3%nat /\
  static_data_from true [] [(ex_now, ex_first)].
Proof.
  assert (G : forall k s, gsv_message s (lit "GP") 3 k (ex_gsv_fields k) -> 1 <= k <= 3 -> conforming [lit "GP"] s).
  { intros k s H Hk.
    assert (P : gsv_part s (lit "GP") 3 k) by (destruct H as (A & B & C); exists (ex_gsv_fields k); auto).
    split.
    - intros tt fff mid channel n payload F. destruct (fragment_not_gsv _ _ _ _ _ _ _ _ _ _ F P).
    - intros tt c n Q. destruct (gsv_part_unique _ _ _ _ _ _ _ P Q) as (<- & <- & <-). split; [now left|]. lia. }
  pose proof (proj2 ex_gsv_group) as F. unfold ex_gsv_calls in F. apply Forall_cons_1 in F as [F3 F]. apply Forall_cons_1 in F as [F1 F].
  apply Forall_cons_1 in F as [F2 _]. cbn [fst snd] in F1, F2, F3.
  split; [|split; [|split; [|split]]].
  - split.
    + intros tt fff mid channel n payload H. destruct (fragment_unique _ _ _ _ _ _ _ _ _ _ _ _ _ ex_first_fragment H) as (_ & _ & <- & <- & _).
      split; [lia|now left].
    + intros tt c n Q. destruct (fragment_not_gsv _ _ _ _ _ _ _ _ _ _ ex_first_fragment Q).
  - apply (G 3); [exact F3|lia].
  - apply (G 2); [exact F2|lia].
  - vm_compute. reflexivity.
  - intros h1 now s h2 tt fff payload E C _. destruct h1 as [|x h1].
    + injection E as <- <- <-. exfalso.
      destruct c66_example as (_ & N & _). exact (N _ _ _ C).
    + destruct h1; discriminate E.
Qed.
