(** Facts about histories of calls. *)
From stdpp Require Import gmap.
From Coq Require Import List NArith ZArith Bool String Lia.
From Verif Require Import Base Str F64 Chrono Types Util AisMod Vdm Gnss Parser
  SpecText SpecResult SpecAis SpecState StrFacts FrontFacts CallFacts ResultFacts BitFacts VdmFacts StateFacts.
Import ListNotations.
Open Scope N_scope.

Lemma run_cons ovf now s h p :
  run ovf ((now, s) :: h) p =
  (fst (parse_sentence ovf now s p) :: results ovf h (snd (parse_sentence ovf now s p)),
   after ovf h (snd (parse_sentence ovf now s p))).
Proof.
  cbn [run]. unfold results, after. destruct (parse_sentence ovf now s p) as [r p1]. cbn [fst snd].
  destruct (run ovf h p1). reflexivity.
Qed.

Lemma results_cons ovf now s h p :
  results ovf ((now, s) :: h) p =
  fst (parse_sentence ovf now s p) :: results ovf h (snd (parse_sentence ovf now s p)).
Proof. unfold results at 1. now rewrite run_cons. Qed.

Lemma after_cons ovf now s h p :
  after ovf ((now, s) :: h) p = after ovf h (snd (parse_sentence ovf now s p)).
Proof. unfold after at 1. now rewrite run_cons. Qed.

Lemma results_app ovf h1 h2 p :
  results ovf (h1 ++ h2) p = results ovf h1 p ++ results ovf h2 (after ovf h1 p).
Proof.
  revert p. induction h1 as [|[now s] h1 IH]; intros p; [reflexivity|].
  cbn [app]. rewrite !results_cons, after_cons, IH. reflexivity.
Qed.

Lemma after_app ovf h1 h2 p : after ovf (h1 ++ h2) p = after ovf h2 (after ovf h1 p).
Proof.
  revert p. induction h1 as [|[now s] h1 IH]; intros p; [reflexivity|].
  cbn [app]. rewrite !after_cons, IH. reflexivity.
Qed.

Lemma run_split ovf h p : run ovf h p = (results ovf h p, after ovf h p).
Proof. unfold results, after. now destruct (run ovf h p). Qed.

(** An invariant of every call holds in every reachable state. *)
Lemma run_invariant ovf (I : NmeaParser -> Prop) h p :
  (forall now s q, I q -> I (snd (parse_sentence ovf now s q))) -> I p -> I (after ovf h p).
Proof.
  intros H. revert p. induction h as [|[now s] h IH]; intros p Hp; [exact Hp|].
  rewrite after_cons. apply IH, H, Hp.
Qed.

Lemma reachable_invariant ovf (I : NmeaParser -> Prop) p :
  (forall now s q, I q -> I (snd (parse_sentence ovf now s q))) -> I new_parser ->
  reachable ovf p -> I p.
Proof. intros H1 H2 (h & ->). now apply run_invariant. Qed.

Lemma reachable_step ovf now s p : reachable ovf p -> reachable ovf (snd (parse_sentence ovf now s p)).
Proof.
  intros (h & ->). exists (h ++ [(now, s)]). rewrite after_app. rewrite after_cons. reflexivity.
Qed.

(** Calls that never touch an entry. *)
Lemma run_writes ovf h p e :
  Forall (fun c => forall q, ~ touches ovf (snd c) q e) h -> stored (after ovf h p) e = stored p e.
Proof.
  intros H. revert p. induction H as [|[now s] h Hs _ IH]; intros p; [reflexivity|].
  rewrite after_cons, IH. apply call_writes, Hs.
Qed.

(** Calls that touch only entries in [K]. *)
Lemma run_frame ovf h (K : entry -> Prop) p q :
  Forall (fun c => forall q e, touches ovf (snd c) q e -> K e) h -> agree K p q ->
  results ovf h p = results ovf h q /\ agree K (after ovf h p) (after ovf h q).
Proof.
  intros H. revert p q. induction H as [|[now s] h Hs _ IH]; intros p q Ha; [auto|].
  rewrite !results_cons, !after_cons. cbn [snd] in Hs.
  destruct (call_frame ovf now s K p q Ha) as [H1 H2]; [apply Hs|].
  destruct (IH _ _ H2) as [H3 H4]. rewrite H1, H3. auto.
Qed.

Lemma unrelated_touches ovf s fff mid channel p e :
  fff = lit "VDM" \/ fff = lit "VDO" -> unrelated fff mid channel s -> touches ovf s p e ->
  other_than fff mid channel e.
Proof.
  intros Hf Hu Ht n Hn E. destruct Ht as [tt fff' mid' channel' n' payload k H1 H2|tt c n' k H1|]; [| |discriminate].
  - apply Text_inj in E. apply fragment_key_inj in E as (-> & -> & -> & _).
    + now apply Hu in H1.
    + eapply fragment_formatter; eassumption.
    + exact Hf.
  - apply Text_inj in E. symmetry in E. now apply fragment_key_gsv_key in E.
Qed.

(** The two orders of two fragments. *)
Lemma fragments_step ovf now1 now2 h p p0 s1 s2 tt1 tt2 fff mid channel a b n1 n2 whole :
  fragment s1 tt1 fff mid channel n1 a -> fragment s2 tt2 fff mid channel n2 b -> n1 <> n2 ->
  one_fragment whole tt2 fff (if n1 =? 1 then a ++ b else b ++ a) ->
  kept p (fragment_key fff mid channel n2) = None ->
  not_waiting p0 fff mid channel -> agree (other_than fff mid channel) p p0 ->
  Forall (fun c => unrelated fff mid channel (snd c)) h ->
  run ovf ((now1, s1) :: h ++ [(now2, s2)]) p =
  (Ok PsIncomplete :: results ovf h p0 ++ [fst (parse_sentence ovf now2 whole (after ovf h p0))],
   snd (parse_sentence ovf now2 whole (after ovf h p0))).
Proof.
  intros H1 H2 Hne Hw Hp Hp0 Ha Hh.
  pose proof (fragment_formatter _ _ _ _ _ _ _ H1) as Hf.
  pose proof (fragment_number _ _ _ _ _ _ _ H1) as N1. pose proof (fragment_number _ _ _ _ _ _ _ H2) as N2.
  set (key1 := fragment_key fff mid channel n1) in *. set (key2 := fragment_key fff mid channel n2) in *.
  assert (Hk : key1 <> key2).
  { intros E. apply fragment_key_inj in E as (_ & _ & _ & E); auto. }
  (* the first fragment is stored *)
  assert (S1 : parse_sentence ovf now1 s1 p = (Ok PsIncomplete, push_string key1 a p)).
  { rewrite (fragment_vdm_step _ _ _ _ _ _ _ _ _ _ H1). unfold first_step, second_step.
    destruct N1 as [-> | ->]; [change (1 =? 1) with true|change (2 =? 1) with false]; cbv iota.
    - assert (n2 = 2) as E by lia. subst n2. fold key2. now rewrite Hp.
    - assert (n2 = 1) as E by lia. subst n2. fold key2. now rewrite Hp. }
  rewrite run_split, results_cons, after_cons, S1. cbn [fst snd].
  rewrite results_app, after_app, results_cons, after_cons. cbn [results after run fst snd].
  set (p1 := push_string key1 a p).
  assert (Ho1 : ~ other_than fff mid channel (Text key1)) by (intros X; now apply (X n1)).
  assert (Ho2 : ~ other_than fff mid channel (Text key2)) by (intros X; now apply (X n2)).
  assert (Hp01 : stored p0 (Text key1) = None) by now apply Hp0.
  assert (Hp02 : stored p0 (Text key2) = None) by now apply Hp0.
  assert (A1 : agree (other_than fff mid channel) p1 p0).
  { intros e He. unfold p1. rewrite stored_push. destruct (decide (e = Text key1)) as [-> |_]; [tauto|].
    now apply Ha. }
  assert (Hh1 : Forall (fun c => forall q e, touches ovf (snd c) q e -> other_than fff mid channel e) h).
  { eapply Forall_impl; [|exact Hh]. intros c Hc q e. now apply unrelated_touches. }
  assert (Hw1 : forall q n, n = 1 \/ n = 2 -> stored (after ovf h q) (Text (fragment_key fff mid channel n))
                              = stored q (Text (fragment_key fff mid channel n))).
  { intros q n Hn. apply run_writes. eapply Forall_impl; [|exact Hh1]. intros c Hc q' Ht.
    now apply (Hc _ _ Ht n). }
  destruct (run_frame ovf h _ p1 p0 Hh1 A1) as [R1 R2]. rewrite R1.
  (* the second fragment finds the first *)
  assert (E1 : kept (after ovf h p1) key1 = Some a).
  { pose proof (Hw1 p1 n1 N1) as E. fold key1 in E. unfold p1 in E at 2. rewrite stored_push, decide_True in E by reflexivity.
    now apply stored_kept in E. }
  assert (E2 : without key1 (after ovf h p1) = after ovf h p0).
  { apply stored_ext. intros e. rewrite stored_without.
    destruct (decide (e = Text key1)) as [-> |D1].
    - pose proof (Hw1 p0 n1 N1) as E. fold key1 in E. now rewrite E, Hp01.
    - destruct (decide (e = Text key2)) as [-> |D2].
      + pose proof (Hw1 p0 n2 N2) as E. pose proof (Hw1 p1 n2 N2) as E'. fold key2 in E, E'.
        rewrite E, E', Hp02. unfold p1. rewrite stored_push.
        rewrite decide_False by exact D1. now apply stored_kept_none.
      + apply R2. intros n Hn. assert (n = n1 \/ n = n2) as [-> | ->] by lia; assumption. }
  rewrite (one_fragment_step _ _ _ _ _ _ _ Hw).
  rewrite (fragment_vdm_step _ _ _ _ _ _ _ _ _ _ H2). unfold first_step, second_step.
  destruct N1 as [-> | ->].
  - change (1 =? 1) with true. assert (n2 = 2) as E by lia. subst n2. change (2 =? 1) with false. cbv iota beta.
    fold key1. now rewrite E1, E2.
  - change (2 =? 1) with false. assert (n2 = 1) as E by lia. subst n2. change (1 =? 1) with true. cbv iota beta.
    fold key1. now rewrite E1, E2.
Qed.

(** ** Stored static data *)

Definition vsds_ok (p : NmeaParser) : Prop :=
  forall m v, saved_vsds p !! m = Some v -> vsd_mmsi v = m /\ fresh_part v.

Lemma merge_fresh a b : fresh_part a -> fresh_part b -> vsd_mmsi a = vsd_mmsi b ->
  exists m, merge a b = Ok m.
Proof.
  intros (A1 & A2 & A3) (B1 & B2 & B3) E. unfold merge. rewrite A1, A2, A3, B1, B2, B3, E, N.eqb_refl.
  cbn [ais_class_eqb negb opt_N_eqb]. eauto.
Qed.

Lemma t24_store_total v p : vsds_ok p -> fresh_part v ->
  exists x, fst (t24_store v p) = Ok x.
Proof.
  intros Hp Hv. unfold t24_store, pull_vsd. destruct (saved_vsds p !! vsd_mmsi v) as [w|] eqn:E; cbn [fst].
  - destruct (Hp _ _ E) as [E1 E2]. destruct (merge_fresh v w Hv E2) as [m ->]; [congruence|].
    cbn. eauto.
  - eauto.
Qed.

Lemma t24_store_vsds_ok v p : vsds_ok p -> fresh_part v -> vsds_ok (snd (t24_store v p)).
Proof.
  intros Hp Hv m w. unfold t24_store, pull_vsd.
  destruct (saved_vsds p !! vsd_mmsi v) as [x|]; cbn [snd push_vsd saved_vsds].
  - intros H. apply lookup_delete_Some in H as [_ H]. now apply Hp.
  - intros H. apply lookup_insert_Some in H as [[<- <-]|[_ H]]; [auto|].
    apply lookup_delete_Some in H as [_ H]. now apply Hp.
Qed.

Lemma decode_vsds_ok ovf now fff payload st p :
  vsds_ok p -> vsds_ok (snd (decode_payload ovf now fff payload st p)).
Proof.
  intros H. destruct (decode_act ovf now fff payload st) as [(r & ->)|(bits & v & _ & _ & _ & _ & _ & Hv & ->)];
    [exact H|now apply t24_store_vsds_ok].
Qed.

Lemma call_vsds_ok ovf now s p : vsds_ok p -> vsds_ok (snd (parse_sentence ovf now s p)).
Proof.
  intros H. destruct (sentence_kind ovf now s) as (f & K & ->).
  destruct K as [r|tt fff payload Hs|tt fff mid channel a Hs|tt fff mid channel b Hs|tt c n body given Hs Hb].
  - exact H.
  - now apply decode_vsds_ok.
  - unfold first_step. destruct (kept p _); [now apply decode_vsds_ok|exact H].
  - unfold second_step. destruct (kept p _); [now apply decode_vsds_ok|exact H].
  - unfold vsds_ok. now rewrite gsv_step_vsds.
Qed.

Lemma reachable_vsds_ok ovf p : reachable ovf p -> vsds_ok p.
Proof.
  apply reachable_invariant; [intros now s q; apply call_vsds_ok|].
  intros m v H. cbn in H. now rewrite lookup_empty in H.
Qed.

(** ** Error and panic *)

Lemma decode_fails ovf now fff payload st p :
  vsds_ok p -> (exists x, fst (decode_payload ovf now fff payload st p) = Ok x) \/
  snd (decode_payload ovf now fff payload st p) = p.
Proof.
  intros H. destruct (decode_act ovf now fff payload st) as [(r & ->)|(bits & v & _ & _ & _ & _ & _ & Hv & ->)].
  - now right.
  - left. now apply t24_store_total.
Qed.

Lemma decode_panic ovf now fff payload st p :
  fst (decode_payload ovf now fff payload st p) = Panic ->
  snd (decode_payload ovf now fff payload st p) = p.
Proof.
  destruct (decode_act ovf now fff payload st) as [(r & ->)|(bits & v & _ & _ & _ & _ & _ & Hv & ->)].
  - reflexivity.
  - unfold t24_store. destruct (pull_vsd _ _) as [[w|] p']; cbn [fst].
    + destruct (merge v w) eqn:E; cbn; try discriminate. intros _. exfalso.
      revert E. unfold merge.
      repeat match goal with |- context [if ?b then _ else _] => destruct b; [discriminate|] end. discriminate.
    + discriminate.
Qed.

Lemma gsv_step_panic ovf tt c n body p :
  fst (gsv_step ovf tt c n body p) = Panic ->
  ovf = true /\ c >= u32_max /\ snd (gsv_step ovf tt c n body p) = push_string (gsv_key tt c n) body p.
Proof.
  unfold gsv_step, gsv_range. destruct (N.ltb_spec c u32_max) as [H|H].
  - destruct (_ =? c); [|discriminate]. destruct (gsv_collect _ _ _ _ _). discriminate.
  - destruct ovf; [|destruct (_ =? c); [destruct (gsv_collect _ _ _ _ _); discriminate|discriminate]].
    intros _. repeat split. lia.
Qed.

Lemma gsv_step_not_err ovf tt c n body p e : fst (gsv_step ovf tt c n body p) <> Err e.
Proof.
  unfold gsv_step. destruct (gsv_range ovf c); [|discriminate].
  destruct (_ =? c); [|discriminate]. destruct (gsv_collect _ _ _ _ _). discriminate.
Qed.

(** Histories that touch only some entries. *)
Lemma touches_only_frame ovf (K : entry -> Prop) h p q :
  touches_only ovf K h p -> agree K p q ->
  results ovf h p = results ovf h q /\ agree K (after ovf h p) (after ovf h q) /\ touches_only ovf K h q.
Proof.
  revert p q. induction h as [|[now s] h IH]; intros p q; [intros _ H; split; [reflexivity|now split]|].
  cbn [touches_only]. intros [H1 H2] Ha. rewrite !results_cons, !after_cons.
  destruct (call_frame ovf now s K p q Ha H1) as [E1 E2].
  destruct (IH _ _ H2 E2) as (I1 & I2 & I3). rewrite E1, I1. split; [reflexivity|]. split; [exact I2|].
  split; [|exact I3]. intros e He. apply H1. eapply agree_touches; eassumption.
Qed.

Lemma touches_only_writes ovf (K : entry -> Prop) h p e :
  touches_only ovf K h p -> ~ K e -> stored (after ovf h p) e = stored p e.
Proof.
  revert p. induction h as [|[now s] h IH]; intros p; [reflexivity|].
  cbn [touches_only]. intros [H1 H2] He. rewrite after_cons, IH by assumption.
  apply call_writes. intros Ht. now apply He, H1.
Qed.
