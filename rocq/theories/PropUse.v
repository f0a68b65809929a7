(** C90: no received sentence is used for two reports. *)
From stdpp Require Import gmap.
From Coq Require Import Classical_Prop List NArith ZArith Bool String Lia.
From Verif Require Import Base Str F64 Chrono Types Util AisMod Vdm Gnss Parser
  SpecText SpecResult SpecAis SpecTime SpecState SpecUse StrFacts FrontFacts CallFacts ResultFacts BitFacts
  VdmFacts StateFacts PropFront PropState PropGsv PropMemory.
Import ListNotations.
Open Scope N_scope.

Local Opaque pick_string pick_u64 pick_i64 pick_eta parse_f64 be_value.

Lemma no_report_incomplete x : ~ reports (Ok PsIncomplete) x.
Proof. intros [E N]. injection E as <-. now apply N. Qed.

Lemma pending_without_some k x p : kept p k = Some x -> S (pending (without k p)) = pending p.
Proof.
  unfold kept. intros H. unfold pending, strings_count, vsds_count, without. cbn [saved_fragments saved_vsds].
  rewrite map_size_delete, H. cbn [from_option]. unfold kept in H.
  assert (size (saved_fragments p) <> 0)%nat by (apply map_size_non_empty_iff; intros E; rewrite E in H; discriminate H). lia.
Qed.

(** Decoding: the result for type 24 messages takes away an entry. *)
Lemma decode_pending ovf now fff payload st p :
  let c := decode_payload ovf now fff payload st p in
  (bits_at (payload_bits payload) 0 6 <> 24 -> pending (snd c) = pending p) /\
  (pending (snd c) <= S (pending p))%nat /\
  (forall x, bits_at (payload_bits payload) 0 6 = 24 -> reports (fst c) x -> S (pending (snd c)) = pending p).
Proof.
  cbv zeta. split; [|split; [apply pending_decode|]].
  - intros N. destruct (decode_act ovf now fff payload st) as [(r & ->)|(bits & v & E1 & _ & _ & E2 & _)]; [reflexivity|].
    apply payload_bits_model in E1. subst bits. rewrite bits_at_value in E2. congruence.
  - intros x E [Hr Hx]. unfold decode_payload in *. destruct (parse_payload ovf payload) as [bits|e|] eqn:Ep; cbn [fst snd] in *.
    2: { injection Hr as <-. now destruct Hx. }
    2: discriminate.
    apply payload_bits_model in Ep. subst bits. set (bits := payload_bits payload) in *. clearbody bits.
    assert (E' : pick_u64 bits 0 6 = 24) by (rewrite pick_u64_spec by lia; exact E).
    unfold dispatch_message in *. rewrite E' in *. cbv zeta iota beta in *. unfold handle_t24 in *.
    destruct ((pick_u64 bits 38 2 =? 0) || (pick_u64 bits 38 2 =? 1)); [|discriminate Hr].
    destruct (t24_fields bits _ _) as [v|e|]; [|discriminate Hr|discriminate Hr].
    unfold t24_store, pull_vsd in *. destruct (saved_vsds p !! vsd_mmsi v) as [w|] eqn:Ev; cbn [fst snd] in *.
    + unfold pending, strings_count, vsds_count. cbn [saved_fragments saved_vsds]. rewrite map_size_delete, Ev. cbn [from_option].
      assert (size (saved_vsds p) <> 0)%nat by (apply map_size_non_empty_iff; intros X; rewrite X in Ev; discriminate Ev). lia.
    + injection Hr as <-. now destruct Hx.
Qed.

Lemma collect_pending nav tt c range p : plain tt -> List.NoDup range ->
  (forall i, In i range -> kept p (gsv_key tt c i) <> None) ->
  (pending (snd (gsv_collect nav (lit "$" ++ tt ++ lit "GSV") c range p)) + List.length range = pending p)%nat.
Proof.
  intros Pt. revert p. induction range as [|i range IH]; intros p ND H; [cbn; lia|]. cbn [gsv_collect].
  unfold pull_string. rewrite gsv_key_model. cbn beta iota. fold (without (gsv_key tt c i) p).
  inversion ND as [|? ? Ni ND']; subst.
  specialize (IH (without (gsv_key tt c i) p) ND').
  destruct (gsv_collect nav _ c range _) as [v p2]. cbn [snd List.length] in *.
  destruct (kept p (gsv_key tt c i)) as [x|] eqn:E; [|exfalso; now apply (H i (or_introl eq_refl))].
  pose proof (pending_without_some _ _ _ E). rewrite <- H0, <- IH; [lia|].
  intros j Hj. unfold kept, without. cbn [saved_fragments]. rewrite lookup_delete_ne; [apply H; now right|].
  intros K. apply gsv_key_inj in K as (_ & _ & ->); auto.
Qed.

Lemma filter_all {A} (f : A -> bool) l : List.length (List.filter f l) = List.length l -> forall x, In x l -> f x = true.
Proof.
  induction l as [|a l IH]; cbn [List.filter List.length]; [contradiction|]. intros H x Hx.
  assert (L : forall l', (List.length (List.filter f l') <= List.length l')%nat).
  { clear. induction l' as [|b l' IH]; cbn [List.filter]; [lia|]. destruct (f b); cbn [List.length]; lia. }
  specialize (L l). destruct (f a) eqn:E; cbn [List.length] in H; [|lia].
  destruct Hx as [<-|Hx]; [exact E|]. apply IH; [lia|exact Hx].
Qed.

Lemma gsv_pending ovf tt c n body p x : plain tt -> reports (fst (gsv_step ovf tt c n body p)) x ->
  (N.to_nat c + pending (snd (gsv_step ovf tt c n body p)) <= S (pending p))%nat.
Proof.
  intros Pt. unfold gsv_step. set (q := push_string (gsv_key tt c n) body p).
  assert (Hq : (pending q <= S (pending p))%nat) by apply pending_push. clearbody q.
  destruct (gsv_range ovf c) as [range|] eqn:R; [|intros [X _]; discriminate X].
  destruct (N.eqb_spec (gsv_found (lit "$" ++ tt ++ lit "GSV") c range q) c) as [F|F]; [|intros X; now apply no_report_incomplete in X].
  intros _. rewrite gsv_found_spec in F.
  assert (G : List.NoDup range /\ (List.length range <= N.to_nat c)%nat).
  { unfold gsv_range in R. destruct (c <? u32_max).
    - injection R as <-. rewrite map_length, seq_length. split; [|lia].
      apply FinFun.Injective_map_NoDup; [|apply seq_NoDup]. intros a b. apply Nat2N.inj.
    - destruct ovf; [discriminate|]. injection R as <-. split; [constructor|cbn; lia]. }
  destruct G as [ND L].
  match type of F with N.of_nat (List.length (List.filter ?f _)) = _ =>
    assert (A : List.length (List.filter f range) = List.length range) by (pose proof (filter_le f range); lia) end.
  pose proof (collect_pending (nav_of_talker tt) tt c range q Pt ND) as C.
  assert (K : forall i, In i range -> kept q (gsv_key tt c i) <> None).
  { intros i Hi X. pose proof (filter_all _ _ A i Hi) as K. cbn beta in K. unfold kept in X. rewrite X in K. discriminate K. }
  specialize (C K). destruct (gsv_collect _ _ _ _ q) as [v p2]. cbn [snd] in *. lia.
Qed.

(** One call: what a report is made of is no longer pending; without a report, at most one more entry is. *)
Theorem c90_call ovf now s p n :
  used s p (fst (parse_sentence ovf now s p)) n ->
  let p' := snd (parse_sentence ovf now s p) in
  (n + (strings_count p' + vsds_count p') <= 1 + (strings_count p + vsds_count p))%nat.
Proof.
  cbv zeta. intros U. fold (pending (snd (parse_sentence ovf now s p))). fold (pending p).
  destruct U as [N|x tt c k R G|x R NG NF NS|x R F NS|x R NF S|x R F S].
  - apply pending_call.
  - destruct (gsv_part_step ovf now s p _ _ _ G) as (body & given & _ & E). rewrite E in *.
    apply (gsv_pending _ _ _ _ _ _ x); [|exact R]. destruct G as (fs & G & _). now apply gsv_with_plain in G.
  - destruct (sentence_kind ovf now s) as (f & K & Hf). rewrite Hf in *.
    destruct K as [r|tt fff payload Hs|tt fff mid channel a Hs|tt fff mid channel b Hs|tt c k body given Hs Hb].
    + cbn [snd]. lia.
    + destruct (decode_pending ovf now fff payload (station_of_talker tt) p) as (D & _). rewrite D; [lia|].
      intros E. apply NS. exists tt, fff, payload. split; [now apply complete_one|exact E].
    + exfalso. apply NF. do 6 eexists. exact Hs.
    + exfalso. apply NF. do 6 eexists. exact Hs.
    + exfalso. apply NG. do 3 eexists. exact Hs.
  - destruct F as (tt & fff & mid & channel & k & payload & F). rewrite (fragment_vdm_step _ _ _ _ _ _ _ _ _ _ F) in *.
    assert (K : k = 1 \/ k = 2) by (destruct F as (? & ? & ? & ? & _ & _ & _ & _ & _ & H & _); exact H).
    destruct K as [-> | ->]; cbn [N.eqb Pos.eqb] in *.
    + unfold first_step in *. destruct (kept p _) as [b|] eqn:E; [|now apply no_report_incomplete in R].
      pose proof (pending_without_some _ _ _ E) as W.
      destruct (decode_pending ovf now fff (payload ++ b) (station_of_talker tt) (without (fragment_key fff mid channel 2) p)) as (D & _).
      rewrite D; [lia|]. intros X. apply NS. exists tt, fff, (payload ++ b). split; [|exact X].
      eapply complete_first; [exact F|]. now apply waiting_lookup.
    + unfold second_step in *. destruct (kept p _) as [a|] eqn:E; [|now apply no_report_incomplete in R].
      pose proof (pending_without_some _ _ _ E) as W.
      destruct (decode_pending ovf now fff (a ++ payload) (station_of_talker tt) (without (fragment_key fff mid channel 1) p)) as (D & _).
      rewrite D; [lia|]. intros X. apply NS. exists tt, fff, (a ++ payload). split; [|exact X].
      eapply complete_second; [exact F|]. now apply waiting_lookup.
  - destruct S as (tt & fff & payload & [pl Hs|mid channel a b Hs Hw|mid channel a b Hs Hw] & E);
      [|exfalso; apply NF; do 6 eexists; exact Hs..].
    rewrite (one_fragment_step _ _ _ _ _ _ _ Hs) in *.
    destruct (decode_pending ovf now fff pl (station_of_talker tt) p) as (_ & _ & D). rewrite <- (D x E R). lia.
  - destruct S as (tt & fff & payload & [pl Hs|mid channel a b Hs Hw|mid channel a b Hs Hw] & E).
    + exfalso. destruct F as (tt' & fff' & mid & channel & k & pl' & (fs & c & ? & ? & H & H0 & Hc & _)).
      destruct Hs as (count & number & id & channel' & n' & (more & Hs) & Hc' & _).
      destruct (vdm_with_unique _ _ _ _ _ _ _ H Hs) as (-> & -> & ->). injection H0 as <-.
      pose proof (denotes_unique _ _ _ Hc Hc') as X. discriminate X.
    + rewrite (fragment_vdm_step _ _ _ _ _ _ _ _ _ _ Hs) in *. cbn [N.eqb Pos.eqb] in *. apply stored_kept in Hw.
      unfold second_step in *. rewrite Hw in *. pose proof (pending_without_some _ _ _ Hw) as W.
      destruct (decode_pending ovf now fff (a ++ b) (station_of_talker tt) (without (fragment_key fff mid channel 1) p)) as (_ & _ & D).
      specialize (D x E R). lia.
    + rewrite (fragment_vdm_step _ _ _ _ _ _ _ _ _ _ Hs) in *. cbn [N.eqb Pos.eqb] in *. apply stored_kept in Hw.
      unfold first_step in *. rewrite Hw in *. pose proof (pending_without_some _ _ _ Hw) as W.
      destruct (decode_pending ovf now fff (a ++ b) (station_of_talker tt) (without (fragment_key fff mid channel 2) p)) as (_ & _ & D).
      specialize (D x E R). lia.
Qed.
Print Assumptions c90_call.

(** Any history: the sentences behind all reports and the pending entries together are at most the
    received sentences. So no sentence was used twice. *)
Theorem c90_no_sentence_twice ovf h n :
  all_used ovf h new_parser n ->
  (n + (strings_count (after ovf h new_parser) + vsds_count (after ovf h new_parser)) <= List.length h)%nat.
Proof.
  assert (G : forall p, all_used ovf h p n -> (n + pending (after ovf h p) <= List.length h + pending p)%nat).
  { intros p H. induction H as [p|now s h p n m U _ IH]; [cbn; lia|]. replace (after ovf ((now, s) :: h) p) with (after ovf h (snd (parse_sentence ovf now s p)))
      by (unfold after; cbn [run]; destruct (parse_sentence ovf now s p) as [r q]; cbn [snd]; now destruct (run ovf h q)).
    cbn [List.length].
    pose proof (c90_call _ _ _ _ _ U) as C. cbv zeta in C. fold (pending (snd (parse_sentence ovf now s p))) in C. fold (pending p) in C. lia. }
  intros H. apply G in H. unfold pending in H. change (strings_count new_parser) with 0%nat in H. change (vsds_count new_parser) with 0%nat in H. lia.
Qed.
Print Assumptions c90_no_sentence_twice.

(** The number exists for every history. *)
Theorem c90_defined ovf h p : exists n, all_used ovf h p n.
Proof.
  revert p. induction h as [|[now s] h IH]; intros p; [exists 0%nat; constructor|].
  destruct (IH (snd (parse_sentence ovf now s p))) as (m & Hm).
  enough (exists n, used s p (fst (parse_sentence ovf now s p)) n) as (n & Hn) by (exists (n + m)%nat; now constructor).
  set (r := fst _). clearbody r.
  destruct (classic (exists x, reports r x)) as [(x & R)|N]; [|exists 0%nat; constructor; intros x R; apply N; now exists x].
  destruct (classic (is_gsv s)) as [(tt & c & k & G)|G]; [eexists; now apply (used_group s p r x tt c k)|].
  destruct (classic (is_fragment s)) as [F|F], (classic (static_part s p)) as [S|S]; eexists.
  - now apply (used_parts_two s p r x).
  - now apply (used_two s p r x).
  - now apply (used_parts s p r x).
  - now apply (used_alone s p r x).
Qed.
Print Assumptions c90_defined.

(** A group of satellites and a message in two fragments, mixed: all five sentences are used and nothing is left. *)
Example c90_example :
  let h := [(ex_now, ex_gsv3); (ex_now, ex_first); (ex_now, ex_gsv1); (ex_now, ex_gsv2); (ex_now, ex_second)] in
  all_used true h new_parser 5 /\ List.length h = 5%nat /\
  strings_count (after true h new_parser) = 0%nat /\ vsds_count (after true h new_parser) = 0%nat.
Proof.
  cbv zeta. split; [|split; [|split]; vm_compute; reflexivity].
  assert (Z : forall s p, fst (parse_sentence true ex_now s p) = Ok PsIncomplete -> used s p (fst (parse_sentence true ex_now s p)) 0).
  { intros s p E. rewrite E. constructor. intros x. apply no_report_incomplete. }
  apply (all_used_cons true ex_now _ _ _ 0 5); [apply Z; vm_compute; reflexivity|].
  apply (all_used_cons true ex_now _ _ _ 0 5); [apply Z; vm_compute; reflexivity|].
  apply (all_used_cons true ex_now _ _ _ 0 5); [apply Z; vm_compute; reflexivity|].
  apply (all_used_cons true ex_now _ _ _ 3 2).
  { eapply (used_group _ _ _ _ (lit "GP") 3 2); [split; [vm_compute; reflexivity|discriminate]|].
    exists (tl (split_on 44 (fst (split_checksum ex_gsv2)))).
    apply check_gsv_message; try (vm_compute; (reflexivity || discriminate || (split; reflexivity))). }
  apply (all_used_cons true ex_now _ _ _ 2 0); [|constructor].
  eapply used_two; [split; [vm_compute; reflexivity|discriminate]|do 6 eexists; exact ex_second_fragment|].
  intros (tt & fff & payload & [pl Hs|mid channel a b Hs Hw|mid channel a b Hs Hw] & E).
  - destruct ex_second_fragment as (fs & c & ? & ? & H & H0 & Hc & _).
    destruct Hs as (count & number & id & channel' & n' & (more & Hs) & Hc' & _).
    destruct (vdm_with_unique _ _ _ _ _ _ _ H Hs) as (<- & <- & ->). injection H0 as <-.
    pose proof (denotes_unique _ _ _ Hc Hc') as X. discriminate X.
  - destruct (fragment_unique _ _ _ _ _ _ _ _ _ _ _ _ _ ex_second_fragment Hs) as (<- & <- & <- & <- & _ & <-).
    vm_compute in Hw. injection Hw as <-. vm_compute in E. discriminate E.
  - destruct (fragment_unique _ _ _ _ _ _ _ _ _ _ _ _ _ ex_second_fragment Hs) as (_ & _ & _ & _ & X & _). discriminate X.
Qed.
