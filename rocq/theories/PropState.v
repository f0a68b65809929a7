(** C09-C15, C51, C60: the parser's memory. *)
From stdpp Require Import gmap.
From Coq Require Import List NArith ZArith Bool String Lia.
From Verif Require Import Base Str F64 Chrono Types Util AisMod Vdm Gnss Parser
  SpecText SpecResult SpecAis SpecState StrFacts FrontFacts CallFacts ResultFacts BitFacts VdmFacts
  StateFacts RunFacts PropFront.
Import ListNotations.
Open Scope N_scope.
Local Opaque pick_string pick_u64 pick_i64 pick_eta parse_f64.

(** Deciding whether a concrete text is a fragment. *)
Lemma check_fragment s tt fff mid channel n payload more :
  vdm_with s tt fff (lit "2" :: dec n :: dec mid :: channel :: payload :: more) ->
  n = 1 \/ n = 2 -> mid < 2 ^ 64 -> fragment s tt fff mid channel n payload.
Proof.
  intros H Hn Hm. exists (lit "2" :: dec n :: dec mid :: channel :: payload :: more), (lit "2"), (dec n), (dec mid).
  split; [exact H|]. split; [reflexivity|]. split; [change (lit "2") with (dec 2); apply dec_denotes|].
  split; [reflexivity|]. split; [apply dec_denotes|]. split; [exact Hn|]. split; [reflexivity|].
  split; [apply dec_denotes|]. split; [exact Hm|]. split; reflexivity.
Qed.

(** The type 5 message of the crate's own test (src/ais/vdm_t5.rs:94-95) in two sentences. *)
Definition ex_first : str := lit "!AIVDM,2,1,1,A,55?MbV02;H;s<HtKR20EHE:0@T4@Dn2222222216L961O5Gf0NSQEp6ClRp8,0*1C".
Definition ex_second : str := lit "!AIVDM,2,2,1,A,88888888880,2*25".
Definition ex_first_payload : str := lit "55?MbV02;H;s<HtKR20EHE:0@T4@Dn2222222216L961O5Gf0NSQEp6ClRp8".
Definition ex_second_payload : str := lit "88888888880".
Definition ex_whole : str :=
  lit "!AIVDM,1,1,,A,55?MbV02;H;s<HtKR20EHE:0@T4@Dn2222222216L961O5Gf0NSQEp6ClRp888888888880,2".

Lemma ex_first_fragment : fragment ex_first (lit "AI") (lit "VDM") 1 (lit "A") 1 ex_first_payload.
Proof.
  apply (check_fragment _ _ _ _ _ _ _ [lit "0"]); [|now left|reflexivity].
  apply check_vdm; [|reflexivity]. vm_compute. auto.
Qed.

Lemma ex_second_fragment : fragment ex_second (lit "AI") (lit "VDM") 1 (lit "A") 2 ex_second_payload.
Proof.
  apply (check_fragment _ _ _ _ _ _ _ [lit "2"]); [|now right|reflexivity].
  apply check_vdm; [|reflexivity]. vm_compute. auto.
Qed.

Lemma ex_whole_one : one_fragment ex_whole (lit "AI") (lit "VDM") (ex_first_payload ++ ex_second_payload).
Proof.
  apply (check_one_fragment _ _ _ (lit "A") _ [lit "2"]). apply check_vdm; [|reflexivity].
  vm_compute. auto.
Qed.

(** The name in a static report. *)
Definition reported_name (r : outcome ParseError ParsedSentence) : option str :=
  match r with Ok (PsVesselStaticData d) => vsd_name d | _ => None end.

(** ** C11, C12: two fragments *)

(** [p0] is [p] without any half of the message (the same state if none is waiting). *)
Theorem c11_fragments_in_order ovf now1 now2 h p p0 s1 s2 tt1 tt2 fff mid channel a b whole :
  fragment s1 tt1 fff mid channel 1 a -> fragment s2 tt2 fff mid channel 2 b ->
  one_fragment whole tt2 fff (a ++ b) ->
  (forall x, ~ waiting p fff mid channel 2 x) ->
  not_waiting p0 fff mid channel -> agree (other_than fff mid channel) p p0 ->
  Forall (fun c => unrelated fff mid channel (snd c)) h ->
  run ovf ((now1, s1) :: h ++ [(now2, s2)]) p =
  (Ok PsIncomplete :: results ovf h p0 ++ [fst (parse_sentence ovf now2 whole (after ovf h p0))],
   snd (parse_sentence ovf now2 whole (after ovf h p0))).
Proof.
  intros H1 H2 Hw Hp Hp0 Ha Hh. eapply fragments_step; try eassumption; [lia|].
  destruct (kept p _) as [x|] eqn:E; [|reflexivity]. exfalso. apply (Hp x). now apply stored_kept.
Qed.
Print Assumptions c11_fragments_in_order.

Theorem c12_fragments_reversed ovf now1 now2 h p p0 s1 s2 tt1 tt2 fff mid channel a b whole :
  fragment s2 tt2 fff mid channel 2 b -> fragment s1 tt1 fff mid channel 1 a ->
  one_fragment whole tt1 fff (a ++ b) ->
  (forall x, ~ waiting p fff mid channel 1 x) ->
  not_waiting p0 fff mid channel -> agree (other_than fff mid channel) p p0 ->
  Forall (fun c => unrelated fff mid channel (snd c)) h ->
  run ovf ((now2, s2) :: h ++ [(now1, s1)]) p =
  (Ok PsIncomplete :: results ovf h p0 ++ [fst (parse_sentence ovf now1 whole (after ovf h p0))],
   snd (parse_sentence ovf now1 whole (after ovf h p0))).
Proof.
  intros H2 H1 Hw Hp Hp0 Ha Hh.
  eapply (fragments_step ovf now2 now1 h p p0 s2 s1); try eassumption; [lia|].
  destruct (kept p _) as [x|] eqn:E; [|reflexivity]. exfalso. apply (Hp x). now apply stored_kept.
Qed.
Print Assumptions c12_fragments_reversed.

(** A GGA sentence and a fragment with another identification come in between. *)
Definition ex_between : history :=
  [(ex_now, lit "$GPGGA,123519,4807.038,N,01131.000,E,1,08,0.9,545.4,M,46.9,M,,");
   (ex_now, lit "!AIVDM,2,2,2,A,88888888880,2")].

Lemma ex_between_unrelated : Forall (fun c => unrelated (lit "VDM") 1 (lit "A") (snd c)) ex_between.
Proof.
  constructor; [|constructor; [|constructor]]; intros tt n payload H; cbn [snd] in H.
  - destruct H as (fields & _ & _ & _ & (Hs & _) & _).
    assert (G : sentence (lit "$GPGGA,123519,4807.038,N,01131.000,E,1,08,0.9,545.4,M,46.9,M,,")
                  (split_on 44 (lit "$GPGGA,123519,4807.038,N,01131.000,E,1,08,0.9,545.4,M,46.9,M,,"))).
    { apply check_sentence. vm_compute. auto. }
    pose proof (sentence_unique _ _ _ Hs G) as E. discriminate E.
  - assert (G : fragment (lit "!AIVDM,2,2,2,A,88888888880,2") (lit "AI") (lit "VDM") 2 (lit "A") 2 ex_second_payload).
    { apply (check_fragment _ _ _ _ _ _ _ [lit "2"]); [|now right|reflexivity].
      apply check_vdm; [|reflexivity]. vm_compute. auto. }
    destruct (fragment_unique _ _ _ _ _ _ _ _ _ _ _ _ _ H G) as (_ & _ & E & _). discriminate E.
Qed.

Example c11_example :
  fragment ex_first (lit "AI") (lit "VDM") 1 (lit "A") 1 ex_first_payload /\
  fragment ex_second (lit "AI") (lit "VDM") 1 (lit "A") 2 ex_second_payload /\
  one_fragment ex_whole (lit "AI") (lit "VDM") (ex_first_payload ++ ex_second_payload) /\
  Forall (fun c => unrelated (lit "VDM") 1 (lit "A") (snd c)) ex_between /\
  map reported_name (results true ((ex_now, ex_first) :: ex_between ++ [(ex_now, ex_second)]) new_parser)
  = [None; None; None; Some (lit "EVER DIADEM")] /\
  map reported_name (results true ((ex_now, ex_second) :: ex_between ++ [(ex_now, ex_first)]) new_parser)
  = [None; None; None; Some (lit "EVER DIADEM")].
Proof.
  split; [exact ex_first_fragment|]. split; [exact ex_second_fragment|]. split; [exact ex_whole_one|].
  split; [exact ex_between_unrelated|]. split; vm_compute; reflexivity.
Qed.

(** Only the talker of the completing sentence matters, and a stale half is replaced: with a first
    half waiting already, a new first half takes its place. *)
Example c11_stale_example :
  let stale := snd (parse_sentence true ex_now (lit "!AIVDM,2,1,1,A,55?MbV00,0") new_parser) in
  waiting stale (lit "VDM") 1 (lit "A") 1 (lit "55?MbV00") /\
  map reported_name (results true [(ex_now, ex_first); (ex_now, ex_second)] stale)
  = [None; Some (lit "EVER DIADEM")].
Proof. split; vm_compute; reflexivity. Qed.

(** ** C13 *)

Definition one_half (p : NmeaParser) : Prop :=
  forall fff mid channel, fff = lit "VDM" \/ fff = lit "VDO" ->
    kept p (fragment_key fff mid channel 1) = None \/ kept p (fragment_key fff mid channel 2) = None.

Lemma decode_text ovf now fff payload st p k :
  kept (snd (decode_payload ovf now fff payload st p)) k = kept p k.
Proof.
  apply stored_text. apply decode_writes. intros (bits & _ & _ & E). discriminate E.
Qed.

Lemma kept_push k x p k' : kept (push_string k x p) k' = if decide (k' = k) then Some x else kept p k'.
Proof.
  unfold kept, push_string. cbn [saved_fragments]. destruct (decide (k' = k)) as [-> |H].
  - apply lookup_insert.
  - apply lookup_insert_ne; congruence.
Qed.

Lemma kept_without k p k' : kept (without k p) k' = if decide (k' = k) then None else kept p k'.
Proof.
  unfold kept, without. cbn [saved_fragments]. destruct (decide (k' = k)) as [-> |H].
  - apply lookup_delete.
  - apply lookup_delete_ne; congruence.
Qed.

Lemma call_one_half ovf now s p : one_half p -> one_half (snd (parse_sentence ovf now s p)).
Proof.
  intros H. destruct (sentence_kind ovf now s) as (f & K & ->).
  destruct K as [r|tt fff payload Hs|tt fff mid channel a Hs|tt fff mid channel b Hs|tt c n body given Hs Hb].
  - exact H.
  - intros fff' mid channel Hf. rewrite !decode_text. now apply H.
  - pose proof (fragment_formatter _ _ _ _ _ _ _ Hs) as Hf. intros fff' mid' channel' Hf'.
    unfold first_step. destruct (kept p _) as [b|] eqn:E.
    + rewrite !decode_text, !kept_without.
      destruct (decide _); [now left|]. destruct (decide _); [now right|]. now apply H.
    + cbn [snd]. rewrite !kept_push. destruct (decide _) as [D|D].
      * apply fragment_key_inj in D as (-> & -> & -> & _); [|assumption|assumption].
        right. rewrite decide_False; [exact E|]. intros D.
        apply fragment_key_inj in D as (_ & _ & _ & D); [discriminate|assumption|assumption].
      * rewrite decide_False; [now apply H|]. intros D'.
        apply fragment_key_inj in D' as (_ & _ & _ & D'); [discriminate|assumption|assumption].
  - pose proof (fragment_formatter _ _ _ _ _ _ _ Hs) as Hf. intros fff' mid' channel' Hf'.
    unfold second_step. destruct (kept p _) as [a|] eqn:E.
    + rewrite !decode_text, !kept_without.
      destruct (decide _); [now left|]. destruct (decide _); [now right|]. now apply H.
    + cbn [snd]. rewrite !kept_push.
      destruct (decide (fragment_key fff' mid' channel' 2 = _)) as [D|D].
      * apply fragment_key_inj in D as (-> & -> & -> & _); [|assumption|assumption].
        left. rewrite decide_False; [exact E|]. intros D.
        apply fragment_key_inj in D as (_ & _ & _ & D); [discriminate|assumption|assumption].
      * rewrite decide_False; [now apply H|]. intros D'.
        apply fragment_key_inj in D' as (_ & _ & _ & D'); [discriminate|assumption|assumption].
  - intros fff mid channel Hf. unfold kept. rewrite !gsv_step_writes by (intros; apply fragment_key_gsv_key).
    now apply H.
Qed.

Theorem c13_at_most_one_half ovf p fff mid channel a b :
  reachable ovf p -> fff = lit "VDM" \/ fff = lit "VDO" ->
  ~ (waiting p fff mid channel 1 a /\ waiting p fff mid channel 2 b).
Proof.
  intros Hr Hf [H1 H2]. apply stored_kept in H1, H2.
  assert (H : one_half p).
  { revert Hr. apply reachable_invariant; [intros now s q; apply call_one_half|].
    intros ? ? ? _. left. unfold kept. cbn [saved_fragments new_parser]. apply lookup_empty. }
  destruct (H fff mid channel Hf); congruence.
Qed.
Print Assumptions c13_at_most_one_half.

(** Completing a message in either order leaves the stored texts as if its fragments had never been
    parsed. *)
Theorem c13_finished_message_forgotten ovf now1 now2 h p s1 s2 tt1 tt2 fff mid channel n1 n2 a b :
  fragment s1 tt1 fff mid channel n1 a -> fragment s2 tt2 fff mid channel n2 b -> n1 <> n2 ->
  not_waiting p fff mid channel -> Forall (fun c => unrelated fff mid channel (snd c)) h ->
  forall k, stored (after ovf ((now1, s1) :: h ++ [(now2, s2)]) p) (Text k) = stored (after ovf h p) (Text k).
Proof.
  intros H1 H2 Hne Hp Hh k. unfold after at 1.
  pose proof (fragment_formatter _ _ _ _ _ _ _ H2) as Hf.
  assert (Hp2 : kept p (fragment_key fff mid channel n2) = None).
  { apply stored_kept_none, Hp. eapply fragment_number; eassumption. }
  pose proof H2 as (fields & _ & _ & _ & (((body & given & _ & _ & (_ & Hpl & _)) & _ & Htt & _) & _)).
  (* some sentence that carries the whole payload *)
  set (pl := if n1 =? 1 then a ++ b else b ++ a).
  assert (Hplain : plain a /\ plain b).
  { destruct H1 as (f1 & _ & _ & _ & (((? & ? & _ & _ & (_ & Q1 & _)) & _) & _ & _ & _ & _ & _ & _ & _ & _ & _ & ->)).
    destruct H2 as (f2 & _ & _ & _ & (((? & ? & _ & _ & (_ & Q2 & _)) & _) & _ & _ & _ & _ & _ & _ & _ & _ & _ & ->)).
    assert (Q : forall f, Forall plain f -> plain (nth 4 f [])).
    { intros f Q. destruct (nth_in_or_default 4 f []) as [Q'| ->]; [|intros []].
      rewrite Forall_forall in Q. now apply Q. }
    apply Forall_inv_tail in Q1, Q2. auto. }
  assert (Hw : exists whole, one_fragment whole tt2 fff pl).
  { set (fs := [lit "1"; lit "1"; []; lit "A"; pl]).
    exists (join ((lit "!" ++ tt2 ++ fff) :: fs) ++ lit "*"), (lit "1"), (lit "1"), [], (lit "A"), 1.
    split; [exists []; split; [|split; [discriminate|split; [exact Htt|exact Hf]]]|].
    - exists (join ((lit "!" ++ tt2 ++ fff) :: fs)), []. split; [right; split; [reflexivity|intros []]|].
      split; [now left|]. split; [discriminate|]. split; [|reflexivity].
      apply Forall_inv in Hpl. constructor; [exact Hpl|].
      repeat constructor; try (now apply plain_lit_dec); try (intros X; exact X).
      unfold pl. destruct (n1 =? 1); apply plain_app; tauto.
    - change (lit "1") with (dec 1). pose proof (dec_denotes 1). repeat split; try assumption. lia. }
  destruct Hw as (whole & Hw).
  rewrite (fragments_step ovf now1 now2 h p p s1 s2 tt1 tt2 fff mid channel a b n1 n2 whole); try assumption.
  - cbn [snd]. rewrite (one_fragment_step _ _ _ _ _ _ _ Hw). apply stored_text. apply decode_text.
  - intros e _. reflexivity.
Qed.
Print Assumptions c13_finished_message_forgotten.

Example c13_example :
  let p := snd (parse_sentence true ex_now ex_first new_parser) in
  reachable true p /\ waiting p (lit "VDM") 1 (lit "A") 1 ex_first_payload /\
  strings_count p = 1%nat /\
  strings_count (after true ((ex_now, ex_first) :: ex_between ++ [(ex_now, ex_second)]) new_parser) = 1%nat /\
  strings_count (after true ex_between new_parser) = 1%nat.
Proof.
  split; [now exists [(ex_now, ex_first)]|]. repeat split; vm_compute; reflexivity.
Qed.

(** ** C14 *)

Theorem c14_streams_independent ovf (K : N -> entry -> Prop) m p :
  (forall i j e, i <> j -> K i e -> K j e -> False) ->
  (forall i, touches_only ovf (K i) (stream i m) p) ->
  forall i, stream_results ovf i m p = results ovf (stream i m) p /\
    agree (K i) (after ovf (map snd m) p) (after ovf (stream i m) p).
Proof.
  intros HK.
  assert (G : forall m p q, (forall i, agree (K i) (q i) p) ->
    (forall i, touches_only ovf (K i) (stream i m) (q i)) ->
    forall i, stream_results ovf i m p = results ovf (stream i m) (q i) /\
      agree (K i) (after ovf (map snd m) p) (after ovf (stream i m) (q i))).
  { clear m p. induction m as [|[j [now s]] m IH]; intros p q Ha Ht i.
    - split; [reflexivity|]. intros e He. symmetry. now apply Ha.
    - unfold stream_results. cbn [map fst snd]. rewrite results_cons, after_cons. cbn [combine List.filter fst].
      fold (stream_results ovf i m (snd (parse_sentence ovf now s p))).
      assert (Hj := Ht j). unfold stream in Hj. cbn [List.filter fst] in Hj. rewrite N.eqb_refl in Hj.
      cbn [map snd touches_only] in Hj. fold (stream j m) in Hj. destruct Hj as [Hj1 Hj2].
      destruct (call_frame ovf now s (K j) (q j) p (Ha j) Hj1) as [E1 E2].
      set (q' := fun i => if i =? j then snd (parse_sentence ovf now s (q j)) else q i).
      destruct (IH (snd (parse_sentence ovf now s p)) q') with (i := i) as [I1 I2].
      + intros k. unfold q'. destruct (N.eqb_spec k j) as [-> |Hne]; [exact E2|].
        intros e He. rewrite (Ha k e He). symmetry. apply call_writes. intros Hx.
        apply (HK k j e Hne He). apply Hj1. eapply agree_touches; [exact (Ha j)|exact Hj1|exact Hx].
      + intros k. unfold q'. destruct (N.eqb_spec k j) as [-> |Hne]; [exact Hj2|].
        specialize (Ht k). unfold stream in Ht. cbn [List.filter fst] in Ht.
        destruct (N.eqb_spec j k) as [E|_]; [congruence|]. exact Ht.
      + unfold stream. cbn [List.filter fst]. unfold q' in I1, I2.
        destruct (N.eqb_spec j i) as [-> |Hne].
        * rewrite N.eqb_refl in I1, I2. cbn [map snd]. rewrite results_cons, after_cons.
          fold (stream i m). rewrite E1. unfold stream_results in I1. rewrite I1. auto.
        * destruct (N.eqb_spec i j) as [E|_]; [congruence|]. auto. }
  intros Ht. apply (G m p (fun _ => p)); [|exact Ht]. intros i e _. reflexivity.
Qed.
Print Assumptions c14_streams_independent.

(** AIS sentences and GSV sentences never interfere. *)
Theorem c14_ais_and_gnss_independent ovf m p :
  (forall c, In (0, c) m -> forall tt fff fields, ~ vdm_with (snd c) tt fff fields) ->
  (forall c, In (1, c) m -> forall tt fields, ~ gsv_with (snd c) tt fields) ->
  (forall i c, In (i, c) m -> i = 0 \/ i = 1) ->
  forall i, i = 0 \/ i = 1 -> stream_results ovf i m p = results ovf (stream i m) p.
Proof.
  intros H0 H1 Hm i Hi.
  set (K := fun (i : N) (e : entry) =>
    if i =? 0 then exists tt c k, e = Text (gsv_key tt c k)
    else if i =? 1 then forall tt c k, e <> Text (gsv_key tt c k) else False).
  apply (c14_streams_independent ovf K).
  - intros j k e Hne. unfold K.
    destruct (N.eqb_spec j 0), (N.eqb_spec k 0), (N.eqb_spec j 1), (N.eqb_spec k 1); try congruence; try tauto;
    intros A B; try (destruct A as (? & ? & ? & A)); try (destruct B as (? & ? & ? & B));
    try (now apply A in B); try (now apply B in A).
  - intros j.
    assert (T : forall h q, (forall c, In c h -> In (j, c) m) -> touches_only ovf (K j) h q).
    { induction h as [|[now s] h IH]; intros q Hh; [exact Logic.I|]. cbn [touches_only]. split.
      2:{ apply IH. intros c Hc. apply Hh. now right. }
      specialize (Hh _ (or_introl eq_refl)). intros e He. unfold K.
      destruct (N.eqb_spec j 0) as [-> |N0]; [|destruct (N.eqb_spec j 1) as [-> |N1]].
      - specialize (H0 _ Hh). cbn [snd] in H0.
        destruct He as [tt fff mid channel n payload k A|tt c n k A|tt fff payload A].
        + destruct A as (? & ? & ? & ? & A & _). exfalso. eapply H0. exact A.
        + eauto.
        + exfalso. destruct A as [? A|? ? ? ? A|? ? ? ? A].
          * destruct A as (? & ? & ? & ? & ? & (? & A) & _). eapply H0. exact A.
          * destruct A as (? & ? & ? & ? & A & _). eapply H0. exact A.
          * destruct A as (? & ? & ? & ? & A & _). eapply H0. exact A.
      - specialize (H1 _ Hh). cbn [snd] in H1. intros tt c k C.
        destruct He as [tt' fff mid channel n payload k' A B|tt' c' n k' A|]; [| |discriminate C].
        + apply Text_inj in C. now apply fragment_key_gsv_key in C.
        + destruct A as (? & A & _). eapply H1. exact A.
      - exfalso. destruct (Hm _ _ Hh); congruence. }
    apply T. intros c Hc. unfold stream in Hc. apply in_map_iff in Hc as ([k c'] & <- & Hc).
    apply filter_In in Hc as [Hc E]. cbn [fst] in E. apply N.eqb_eq in E as ->. exact Hc.
Qed.
Print Assumptions c14_ais_and_gnss_independent.

(** Streams of fragments of different messages never interfere, if none of them alone completes a
    type 24 message (such a message is put together per vessel). *)
Theorem c14_messages_independent ovf m p (fff : N -> str) (mid : N -> N) (channel : N -> str) :
  (forall i c, In (i, c) m -> exists tt n payload, fragment (snd c) tt (fff i) (mid i) (channel i) n payload) ->
  (forall i j c d, In (i, c) m -> In (j, d) m -> i <> j ->
    fff i <> fff j \/ mid i <> mid j \/ channel i <> channel j) ->
  (forall i, touches_only ovf (fun e => exists k, e = Text k) (stream i m) p) ->
  forall i, stream_results ovf i m p = results ovf (stream i m) p.
Proof.
  intros Hm Hd Ht i.
  set (K := fun (i : N) (e : entry) =>
    (exists c, In (i, c) m) /\ exists n, e = Text (fragment_key (fff i) (mid i) (channel i) n)).
  apply (c14_streams_independent ovf K).
  - intros j k e Hne ((c & Hc) & n & ->) ((d & Hd') & n' & E). apply Text_inj in E.
    destruct (Hm _ _ Hc) as (? & ? & ? & F). destruct (Hm _ _ Hd') as (? & ? & ? & F').
    apply fragment_formatter in F, F'. apply fragment_key_inj in E as (E1 & E2 & E3 & _); [|assumption|assumption].
    destruct (Hd _ _ _ _ Hc Hd' Hne) as [X|[X|X]]; congruence.
  - intros j. specialize (Ht j).
    assert (T : forall c, In c (stream j m) -> In (j, c) m).
    { intros c Hc. unfold stream in Hc. apply in_map_iff in Hc as ([k c'] & <- & Hc).
      apply filter_In in Hc as [Hc E]. cbn [fst] in E. apply N.eqb_eq in E as ->. exact Hc. }
    revert p Ht. generalize (stream j m), T. clear T.
    induction h as [|[now s] h IH]; intros T q; [trivial|]. cbn [touches_only]. intros [A B]. split.
    2:{ apply IH; [|exact B]. intros c Hc. apply T. now right. }
    specialize (T _ (or_introl eq_refl)). intros e He. split; [eauto|].
    destruct (Hm _ _ T) as (tt & n & payload & F). cbn [snd] in F.
    pose proof (A _ He) as (k & Ek).
    destruct He as [tt' fff' mid' channel' n' payload' k' F'|tt' c' n' k' F'|]; [| |discriminate Ek].
    + destruct (fragment_unique _ _ _ _ _ _ _ _ _ _ _ _ _ F F') as (_ & <- & <- & <- & _). eauto.
    + exfalso. eapply fragment_not_gsv; eassumption.
Qed.
Print Assumptions c14_messages_independent.

#[local] Instance AisClass_eq_dec : EqDecision AisClass. Proof. solve_decision. Defined.
#[local] Instance ShipType_eq_dec : EqDecision ShipType. Proof. solve_decision. Defined.
#[local] Instance CargoType_eq_dec : EqDecision CargoType. Proof. solve_decision. Defined.
#[local] Instance PositionFixType_eq_dec : EqDecision PositionFixType. Proof. solve_decision. Defined.
#[local] Instance datetime_eq_dec : EqDecision datetime. Proof. solve_decision. Defined.
#[local] Instance VesselStaticData_eq_dec : EqDecision VesselStaticData. Proof. solve_decision. Defined.

(** Two calls that touch different entries commute: same results, same final state. *)
Theorem c14_calls_commute ovf now1 s1 now2 s2 p :
  (forall e, touches ovf s1 p e -> touches ovf s2 p e -> False) ->
  let p1 := snd (parse_sentence ovf now1 s1 p) in
  let p2 := snd (parse_sentence ovf now2 s2 p) in
  fst (parse_sentence ovf now2 s2 p1) = fst (parse_sentence ovf now2 s2 p) /\
  fst (parse_sentence ovf now1 s1 p2) = fst (parse_sentence ovf now1 s1 p) /\
  snd (parse_sentence ovf now2 s2 p1) = snd (parse_sentence ovf now1 s1 p2).
Proof.
  intros Hd p1 p2.
  assert (A1 : agree (touches ovf s2 p) p p1).
  { intros e He. symmetry. apply call_writes. intros Hx. now apply (Hd e). }
  assert (A2 : agree (touches ovf s1 p) p p2).
  { intros e He. symmetry. apply call_writes. intros Hx. now apply (Hd e). }
  destruct (call_frame ovf now2 s2 _ p p1 A1 (fun e H => H)) as [E1 F1].
  destruct (call_frame ovf now1 s1 _ p p2 A2 (fun e H => H)) as [E2 F2].
  split; [congruence|]. split; [congruence|].
  apply stored_ext. intros e.
  apply dec_stable. intros Hn.
  assert (~ touches ovf s1 p e) as N1.
  { intros Ht. apply Hn. rewrite <- (F2 e Ht). apply (call_writes ovf now2 s2 p1).
    intros Hx. apply (Hd e Ht). eapply agree_touches; [exact A1|intros ? X; exact X|exact Hx]. }
  assert (~ touches ovf s2 p e) as N2.
  { intros Ht. apply Hn. rewrite <- (F1 e Ht). symmetry. apply (call_writes ovf now1 s1 p2).
    intros Hx. apply (Hd e); [|exact Ht]. eapply agree_touches; [exact A2|intros ? X; exact X|exact Hx]. }
  apply Hn. rewrite call_writes. 2:{ intros Hx. apply N2. eapply agree_touches; [exact A1|intros ? X; exact X|exact Hx]. }
  rewrite (call_writes ovf now1 s1 p2 e).
  2:{ intros Hx. apply N1. eapply agree_touches; [exact A2|intros ? X; exact X|exact Hx]. }
  unfold p1, p2. now rewrite !call_writes.
Qed.
Print Assumptions c14_calls_commute.

(** A GSV group of the crate's tests between the two halves of a message. *)
Definition ex_gsv1 : str := lit "$GPGSV,3,1,11,03,03,111,00,04,15,270,00,06,01,010,00,13,06,292,00*74".
Example c14_example :
  let m := [(1, (ex_now, ex_first)); (0, (ex_now, ex_gsv1)); (1, (ex_now, ex_second))] in
  stream 1 m = [(ex_now, ex_first); (ex_now, ex_second)] /\
  stream_results true 1 m new_parser = results true (stream 1 m) new_parser /\
  map reported_name (results true (stream 1 m) new_parser) = [None; Some (lit "EVER DIADEM")] /\
  gsv_part ex_gsv1 (lit "GP") 3 1 /\ touches true ex_gsv1 new_parser (Text (gsv_key (lit "GP") 3 1)) /\
  (forall e, touches true ex_gsv1 new_parser e -> touches true ex_first new_parser e -> False).
Proof.
  assert (G : gsv_part ex_gsv1 (lit "GP") 3 1).
  { exists (tl (split_on 44 (firstn 65 ex_gsv1))). split; [split; [|split; [vm_compute; discriminate|reflexivity]]|].
    - apply check_sentence. vm_compute. auto.
    - split; right; (split; [|reflexivity]).
      + change (nth 0 (tl (split_on 44 (firstn 65 ex_gsv1))) []) with (dec 3). apply dec_denotes.
      + change (nth 1 (tl (split_on 44 (firstn 65 ex_gsv1))) []) with (dec 1). apply dec_denotes. }
  cbv zeta. split; [reflexivity|]. split; [vm_compute; reflexivity|]. split; [vm_compute; reflexivity|].
  split; [exact G|]. split; [eapply touch_gsv; exact G|].
  intros e He Hf.
  destruct He as [tt fff mid channel n payload k H|tt c n k H|tt fff payload H].
  - eapply fragment_not_gsv; eassumption.
  - destruct (gsv_part_unique _ _ _ _ _ _ _ G H) as (<- & <- & _).
    remember (Text (gsv_key (lit "GP") 3 k)) as e eqn:C.
    destruct Hf as [tt' fff' mid' channel' n' payload' k' F B|tt' c' n' k' F|]; [| |discriminate C].
    + apply Text_inj in C. now apply fragment_key_gsv_key in C.
    + eapply fragment_not_gsv; [exact ex_first_fragment|exact F].
  - destruct G as (? & G & _). destruct H as [? F|? ? ? ? F|? ? ? ? F].
    + destruct F as (? & ? & ? & ? & ? & (? & F) & _). eapply vdm_not_gsv; [exact F|exact G].
    + destruct F as (? & ? & ? & ? & F & _). eapply vdm_not_gsv; [exact F|exact G].
    + destruct F as (? & ? & ? & ? & F & _). eapply vdm_not_gsv; [exact F|exact G].
Qed.

(** ** C15: fragments of different talkers *)

(** The property fails for every pair of talkers: the two halves are always joined. *)
Theorem c15_talkers_kept_apart_refuted ovf now1 now2 p s1 s2 tt1 tt2 fff mid channel a b whole :
  tt1 <> tt2 ->
  fragment s1 tt1 fff mid channel 1 a -> fragment s2 tt2 fff mid channel 2 b ->
  one_fragment whole tt2 fff (a ++ b) -> not_waiting p fff mid channel ->
  run ovf [(now1, s1); (now2, s2)] p =
  ([Ok PsIncomplete; fst (parse_sentence ovf now2 whole p)], snd (parse_sentence ovf now2 whole p)).
Proof.
  intros _ H1 H2 Hw Hp.
  apply (c11_fragments_in_order ovf now1 now2 [] p p s1 s2 tt1 tt2 fff mid channel a b whole); try assumption.
  - intros x Hx. unfold waiting in Hx. rewrite Hp in Hx by now right. discriminate Hx.
  - intros e _. reflexivity.
  - constructor.
Qed.
Print Assumptions c15_talkers_kept_apart_refuted.

(** First half from a base station (talker AB), second half from a mobile station (talker AI). *)
Example c15_witness :
  let s1 := lit "!ABVDM,2,1,1,A,55?MbV02;H;s<HtKR20EHE:0@T4@Dn2222222216L961O5Gf0NSQEp6ClRp8,0" in
  fragment s1 (lit "AB") (lit "VDM") 1 (lit "A") 1 ex_first_payload /\
  fragment ex_second (lit "AI") (lit "VDM") 1 (lit "A") 2 ex_second_payload /\
  one_fragment ex_whole (lit "AI") (lit "VDM") (ex_first_payload ++ ex_second_payload) /\
  map reported_name (results false [(ex_now, s1); (ex_now, ex_second)] new_parser) = [None; Some (lit "EVER DIADEM")].
Proof.
  split; [|split; [exact ex_second_fragment|split; [exact ex_whole_one|vm_compute; reflexivity]]].
  apply (check_fragment _ _ _ _ _ _ _ [lit "0"]); [|now left|reflexivity].
  apply check_vdm; [|reflexivity]. vm_compute. auto.
Qed.

(** ** C09 *)

(** [q] is [p] without the entry [e]. *)
Definition loses (e : entry) (p q : NmeaParser) : Prop :=
  stored q e = None /\ forall e', e' <> e -> stored q e' = stored p e'.

(** [q] is [p] after the waiting other half of the message of [s] was taken. *)
Definition takes_other_half (s : str) (p q : NmeaParser) : Prop :=
  exists tt fff mid channel n payload other, fragment s tt fff mid channel n payload /\
    waiting p fff mid channel (3 - n) other /\ loses (Text (fragment_key fff mid channel (3 - n))) p q.

Lemma without_loses k p : loses (Text k) p (without k p).
Proof.
  split.
  - apply stored_kept_none. rewrite kept_without. now rewrite decide_True.
  - intros e' He. rewrite stored_without. now rewrite decide_False.
Qed.

Theorem c09_error_keeps_state ovf now s p e :
  reachable ovf p -> fst (parse_sentence ovf now s p) = Err e ->
  snd (parse_sentence ovf now s p) = p \/ takes_other_half s p (snd (parse_sentence ovf now s p)).
Proof.
  intros Hr. pose proof (reachable_vsds_ok _ _ Hr) as Hok.
  destruct (sentence_kind ovf now s) as (f & K & ->).
  assert (Hw : forall k, vsds_ok (without k p)) by (intros k m v; apply Hok).
  destruct K as [r|tt fff payload Hs|tt fff mid channel a Hs|tt fff mid channel b Hs|tt c n body given Hs Hb].
  - now left.
  - intros He. destruct (decode_fails ovf now fff payload (station_of_talker tt) p Hok) as [(x & Hx)|Hx]; [congruence|now left].
  - unfold first_step. destruct (kept p _) as [b|] eqn:E; [|discriminate]. intros He. right.
    destruct (decode_fails ovf now fff (a ++ b) (station_of_talker tt) _ (Hw (fragment_key fff mid channel 2)))
      as [(x & Hx)|Hx]; [congruence|]. rewrite Hx.
    exists tt, fff, mid, channel, 1, a, b. split; [exact Hs|]. split; [now apply stored_kept|apply without_loses].
  - unfold second_step. destruct (kept p _) as [a|] eqn:E; [|discriminate]. intros He. right.
    destruct (decode_fails ovf now fff (a ++ b) (station_of_talker tt) _ (Hw (fragment_key fff mid channel 1)))
      as [(x & Hx)|Hx]; [congruence|]. rewrite Hx.
    exists tt, fff, mid, channel, 2, b, a. split; [exact Hs|]. split; [now apply stored_kept|apply without_loses].
  - intros He. now apply gsv_step_not_err in He.
Qed.
Print Assumptions c09_error_keeps_state.

(** An unsupported message type 63 in two halves. *)
Example c09_example :
  let p := snd (parse_sentence true ex_now (lit "!AIVDM,2,1,7,B,w000,0") new_parser) in
  let s := lit "!AIVDM,2,2,7,B,0000,0" in
  reachable true p /\ strings_count p = 1%nat /\
  fst (parse_sentence true ex_now s p) = Err (UnsupportedSentenceType (lit "Unsupported !VDM message type: 63")) /\
  strings_count (snd (parse_sentence true ex_now s p)) = 0%nat.
Proof.
  split; [now exists [(ex_now, lit "!AIVDM,2,1,7,B,w000,0")]|]. repeat split; vm_compute; reflexivity.
Qed.

(** ** C60 *)

Theorem c60_panic_keeps_state ovf now s p :
  fst (parse_sentence ovf now s p) = Panic ->
  let q := snd (parse_sentence ovf now s p) in
  q = p \/ takes_other_half s p q \/
  (ovf = true /\ exists tt n body given, gsv_part s tt (2 ^ 32 - 1) n /\ has_body s body given /\
     stored q (Text (gsv_key tt (2 ^ 32 - 1) n)) = Some (inl body) /\
     forall e, e <> Text (gsv_key tt (2 ^ 32 - 1) n) -> stored q e = stored p e).
Proof.
  cbv zeta. destruct (sentence_kind ovf now s) as (f & K & ->).
  destruct K as [r|tt fff payload Hs|tt fff mid channel a Hs|tt fff mid channel b Hs|tt c n body given Hs Hb].
  - now left.
  - intros He. left. now apply decode_panic.
  - unfold first_step. destruct (kept p _) as [b|] eqn:E; [|discriminate]. intros He. right. left.
    apply decode_panic in He. rewrite He.
    exists tt, fff, mid, channel, 1, a, b. split; [exact Hs|]. split; [now apply stored_kept|apply without_loses].
  - unfold second_step. destruct (kept p _) as [a|] eqn:E; [|discriminate]. intros He. right. left.
    apply decode_panic in He. rewrite He.
    exists tt, fff, mid, channel, 2, b, a. split; [exact Hs|]. split; [now apply stored_kept|apply without_loses].
  - intros He. right. right. apply gsv_step_panic in He as (-> & Hc & ->). split; [reflexivity|].
    assert (c = 2 ^ 32 - 1) as ->.
    { pose proof Hs as (fields & _ & Hcf & _). destruct Hcf as [[_ ->]|[_ Hlt]]; unfold u32_max in Hc; lia. }
    exists tt, n, body, given. split; [exact Hs|]. split; [exact Hb|]. split.
    + apply stored_kept. rewrite kept_push. now rewrite decide_True.
    + intros e He. rewrite stored_push. now rewrite decide_False.
Qed.
Print Assumptions c60_panic_keeps_state.

(** Every theorem about reachable states also covers states after caught panics. *)
Theorem c60_panic_reachable ovf now s p :
  reachable ovf p -> fst (parse_sentence ovf now s p) = Panic ->
  reachable ovf (snd (parse_sentence ovf now s p)).
Proof. intros H _. now apply reachable_step. Qed.
Print Assumptions c60_panic_reachable.

(** A call that panics (a type 4 message that is too short), and the parser still works. *)
Example c60_example :
  let p := snd (parse_sentence true ex_now ex_first new_parser) in
  let s := lit "!AIVDM,1,1,,A,4,0" in
  fst (parse_sentence true ex_now s p) = Panic /\
  map reported_name (results true [(ex_now, s); (ex_now, ex_second)] p) = [None; Some (lit "EVER DIADEM")].
Proof. split; vm_compute; reflexivity. Qed.

Example c60_gsv_example :
  let s := lit "$GPGSV,4294967295,1,11" in
  fst (parse_sentence true ex_now s new_parser) = Panic /\
  strings_count (snd (parse_sentence true ex_now s new_parser)) = 1%nat.
Proof. split; vm_compute; reflexivity. Qed.

(** ** C10 *)

(** A sentence that is neither a fragment, nor a GSV sentence, nor a whole message of type 24, does not use
    the memory. The payload may be any text. *)
Theorem c10_stateless ovf now s :
  (forall tt fff mid channel n payload, ~ fragment s tt fff mid channel n payload) ->
  (forall tt c n, ~ gsv_part s tt c n) ->
  (forall tt fff payload, one_fragment s tt fff payload -> bits_at (payload_bits payload) 0 6 <> 24) ->
  exists r, forall p, parse_sentence ovf now s p = (r, p).
Proof.
  intros H1 H2 H3. destruct (sentence_kind ovf now s) as (f & K & Hf).
  destruct K as [r|tt fff payload Hs|tt fff mid channel a Hs|tt fff mid channel b Hs|tt c n body given Hs Hb].
  - eauto.
  - destruct (decode_act ovf now fff payload (station_of_talker tt)) as [(r & Hr)|(bits & v & E1 & _ & _ & E2 & _)].
    + exists r. intros p. now rewrite Hf.
    + apply parse_payload_readable in E1 as [_ ->]. now apply (H3 _ _ _ Hs) in E2.
  - now apply H1 in Hs.
  - now apply H1 in Hs.
  - now apply H2 in Hs.
Qed.
Print Assumptions c10_stateless.

Theorem c10_gnss_stateless ovf now s tt fff fields :
  sentence s ((lit "$" ++ tt ++ fff) :: fields) -> utf8_bytes tt = 2%nat ->
  In fff [lit "GGA"; lit "RMC"; lit "GSA"; lit "VTG"; lit "GLL"] ->
  exists r, forall p, parse_sentence ovf now s p = (r, p).
Proof.
  intros Hs Ht Hf.
  assert (Hv : forall tt' fff' fields', ~ vdm_with s tt' fff' fields').
  { intros tt' fff' fields' (H & _). pose proof (sentence_unique _ _ _ H Hs) as E. discriminate E. }
  apply c10_stateless.
  - intros ? ? ? ? ? ? (? & ? & ? & ? & H & _). now apply Hv in H.
  - intros tt' c n (fs & (H & _ & Ht') & _). pose proof (sentence_unique _ _ _ H Hs) as E.
    assert (E' : lit "$" ++ tt' ++ lit "GSV" = lit "$" ++ tt ++ fff) by congruence.
    apply app_inv_head in E'. apply (f_equal (@rev N)) in E'. rewrite !rev_app_distr in E'.
    cbn [In] in Hf. destruct Hf as [<-|[<-|[<-|[<-|[<-|[]]]]]];
      apply (f_equal (hd 0)) in E'; vm_compute in E'; discriminate E'.
  - intros tt' fff' payload (? & ? & ? & ? & ? & (? & H) & _). now apply Hv in H.
Qed.
Print Assumptions c10_gnss_stateless.

Theorem c10_one_fragment_stateless ovf now s tt fff payload :
  one_fragment s tt fff payload -> bits_at (payload_bits payload) 0 6 <> 24 ->
  exists r, forall p, parse_sentence ovf now s p = (r, p).
Proof.
  intros Hs Hn. apply c10_stateless.
  - intros tt' fff' mid channel n pl (fs & c & ? & ? & H & H0 & Hc & _).
    destruct Hs as (count & number & id & channel' & n' & (more & Hs) & Hc' & _).
    destruct (vdm_with_unique _ _ _ _ _ _ _ H Hs) as (-> & -> & ->). injection H0 as <-.
    pose proof (denotes_unique _ _ _ Hc Hc') as X. discriminate X.
  - intros tt' c n (fs & H & _). destruct Hs as (? & ? & ? & ? & ? & (? & Hs) & _). eapply vdm_not_gsv; eassumption.
  - intros tt' fff' pl Hs'. enough (pl = payload) as -> by auto.
    destruct Hs as (? & ? & ? & ? & ? & (? & Hs) & _). destruct Hs' as (? & ? & ? & ? & ? & (? & Hs') & _).
    destruct (vdm_with_unique _ _ _ _ _ _ _ Hs Hs') as (_ & _ & E). congruence.
Qed.
Print Assumptions c10_one_fragment_stateless.

Example c10_example :
  let s := lit "!AIVDM,1,1,,A,133m@ogP00PD;88MD5MTDww@2D7k,0*46" in
  one_fragment s (lit "AI") (lit "VDM") (lit "133m@ogP00PD;88MD5MTDww@2D7k") /\
  bits_at (payload_bits (lit "133m@ogP00PD;88MD5MTDww@2D7k")) 0 6 <> 24.
Proof.
  cbv zeta. split.
  - apply (check_one_fragment _ _ _ (lit "A") _ [lit "0"]). apply check_vdm; [|reflexivity]. vm_compute. auto.
  - vm_compute. discriminate.
Qed.

(** The side condition is needed: part B of a type 24 message reads and writes the memory. *)
Example c10_type_24 :
  let s := lit "!AIVDM,1,1,,A,H42O55lti4hhhilD3nink000?050,0*40" in
  snd (parse_sentence true ex_now s new_parser) <> new_parser.
Proof. intros s H. apply (f_equal vsds_count) in H. vm_compute in H. discriminate H. Qed.

(** ** C51 *)

(** Number of pending entries. *)
Definition pending (p : NmeaParser) : nat := (strings_count p + vsds_count p)%nat.

Lemma pending_push k x p : (pending (push_string k x p) <= S (pending p))%nat.
Proof.
  unfold pending, strings_count, vsds_count, push_string. cbn [saved_fragments saved_vsds].
  rewrite map_size_insert. destruct (saved_fragments p !! k); cbn; lia.
Qed.

Lemma pending_without k p : (pending (without k p) <= pending p)%nat.
Proof.
  unfold pending, strings_count, vsds_count, without. cbn [saved_fragments saved_vsds].
  rewrite map_size_delete. destruct (saved_fragments p !! k); cbn; lia.
Qed.

Lemma pending_t24 v p : (pending (snd (t24_store v p)) <= S (pending p))%nat.
Proof.
  unfold pending, strings_count, vsds_count, t24_store, pull_vsd.
  destruct (saved_vsds p !! vsd_mmsi v) as [w|] eqn:E; cbn [snd push_vsd saved_fragments saved_vsds].
  - rewrite map_size_delete, E. cbn. lia.
  - rewrite map_size_insert, map_size_delete, lookup_delete, E. cbn. lia.
Qed.

Lemma pending_decode ovf now fff payload st p :
  (pending (snd (decode_payload ovf now fff payload st p)) <= S (pending p))%nat.
Proof.
  destruct (decode_act ovf now fff payload st) as [(r & ->)|(bits & v & _ & _ & _ & _ & _ & _ & ->)];
    [cbn; lia|apply pending_t24].
Qed.

Lemma pending_collect nav t c range p : (pending (snd (gsv_collect nav t c range p)) <= pending p)%nat.
Proof.
  revert p. induction range as [|i range IH]; intros p; [cbn; lia|]. cbn [gsv_collect].
  unfold pull_string. cbn beta iota. fold (without (make_gsv_key t c i) p).
  specialize (IH (without (make_gsv_key t c i) p)).
  destruct (gsv_collect nav t c range _) as [v p2]. cbn [snd] in *.
  pose proof (pending_without (make_gsv_key t c i) p). lia.
Qed.

Lemma pending_call ovf now s p : (pending (snd (parse_sentence ovf now s p)) <= S (pending p))%nat.
Proof.
  destruct (sentence_kind ovf now s) as (f & K & ->).
  destruct K as [r|tt fff payload Hs|tt fff mid channel a Hs|tt fff mid channel b Hs|tt c n body given Hs Hb].
  - cbn; lia.
  - apply pending_decode.
  - unfold first_step. destruct (kept p _) as [b|] eqn:E; [|apply pending_push].
    etransitivity; [apply pending_decode|]. apply le_n_S, pending_without.
  - unfold second_step. destruct (kept p _) as [b'|] eqn:E; [|apply pending_push].
    etransitivity; [apply pending_decode|]. apply le_n_S, pending_without.
  - unfold gsv_step. pose proof (pending_push (gsv_key tt c n) body p) as Hp.
    destruct (gsv_range ovf c) as [range|]; [|exact Hp]. destruct (_ =? c); [|exact Hp].
    pose proof (pending_collect (nav_of_talker tt) (lit "$" ++ tt ++ lit "GSV") c range
      (push_string (gsv_key tt c n) body p)) as Hq.
    destruct (gsv_collect _ _ _ _ _) as [v p2]. cbn [snd] in *. lia.
Qed.

Theorem c51_at_most_one_per_call ovf h p :
  (strings_count (after ovf h p) + vsds_count (after ovf h p)
   <= strings_count p + vsds_count p + List.length h)%nat.
Proof.
  fold (pending (after ovf h p)). fold (pending p). revert p.
  induction h as [|[now s] h IH]; intros p; [cbn; lia|]. rewrite after_cons.
  etransitivity; [apply IH|]. pose proof (pending_call ovf now s p). cbn [List.length]. lia.
Qed.
Print Assumptions c51_at_most_one_per_call.

(** A first fragment on a channel with a number for a name. *)
Definition stray (i : nat) : str :=
  join [lit "!AIVDM"; lit "2"; lit "1"; lit "0"; dec (N.of_nat i); lit "w"] ++ lit "*".

Lemma stray_fragment i : fragment (stray i) (lit "AI") (lit "VDM") 0 (dec (N.of_nat i)) 1 (lit "w").
Proof.
  apply (check_fragment _ _ _ _ _ _ _ []); [|now left|reflexivity].
  split; [|split; [discriminate|split; [reflexivity|now left]]].
  exists (join [lit "!AIVDM"; lit "2"; lit "1"; lit "0"; dec (N.of_nat i); lit "w"]), [].
  split; [right; split; [reflexivity|intros []]|]. split; [now left|]. split; [discriminate|].
  split; [|reflexivity].
  repeat constructor; try (now apply plain_lit_dec); apply dec_plain.
Qed.

(** The bound is reached for every number of calls: pending memory has no bound. *)
Theorem c51_unbounded ovf (now : datetime) (n : nat) :
  exists h : history, List.length h = n /\ strings_count (after ovf h new_parser) = n /\
    Forall (fun r => r = Ok PsIncomplete) (results ovf h new_parser).
Proof.
  assert (G : forall k m p, strings_count p = k ->
    (forall i j, (k <= i)%nat -> kept p (fragment_key (lit "VDM") 0 (dec (N.of_nat i)) j) = None) ->
    let h := map (fun i => (now, stray i)) (seq k m) in
    List.length h = m /\ strings_count (after ovf h p) = (k + m)%nat /\
    Forall (fun r => r = Ok PsIncomplete) (results ovf h p)).
  { intros k m. revert k. induction m as [|m IH]; intros k p Hk Hp; cbv zeta.
    - split; [reflexivity|]. split; [cbn; lia|constructor].
    - cbn [seq map]. rewrite after_cons, results_cons, (fragment_vdm_step _ _ _ _ _ _ _ _ _ _ (stray_fragment k)).
      unfold first_step. cbn [N.eqb Pos.eqb]. rewrite Hp by lia. cbn [fst snd].
      destruct (IH (S k) (push_string (fragment_key (lit "VDM") 0 (dec (N.of_nat k)) 1) (lit "w") p)) as (A & B & C).
      + unfold strings_count, push_string. cbn [saved_fragments]. rewrite map_size_insert.
        specialize (Hp k 1 ltac:(lia)). unfold kept in Hp. rewrite Hp. cbn. unfold strings_count in Hk. lia.
      + intros i j Hi. rewrite kept_push. rewrite decide_False; [apply Hp; lia|].
        intros E. apply fragment_key_inj in E as (_ & _ & E & _); [|now left|now left].
        apply dec_inj in E. lia.
      + cbn [List.length]. split; [lia|]. split; [lia|]. constructor; [reflexivity|exact C]. }
  destruct (G 0%nat n new_parser) as (A & B & C); [reflexivity| |].
  - intros i j _. unfold kept. cbn [saved_fragments new_parser]. apply lookup_empty.
  - eauto.
Qed.
Print Assumptions c51_unbounded.

Example c51_example :
  strings_count (after false ((ex_now, ex_first) :: ex_between) new_parser) = 2%nat /\
  List.length ((ex_now, ex_first) :: ex_between) = 3%nat.
Proof. split; vm_compute; reflexivity. Qed.
