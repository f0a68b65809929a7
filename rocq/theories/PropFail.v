(** C09 for whole streams: calls that fail leave no trace in the others. *)
From stdpp Require Import gmap.
From Coq Require Import List NArith ZArith Bool String Lia.
From Verif Require Import Base Str F64 Chrono Types Util AisMod Vdm Gnss Parser
  SpecText SpecResult SpecAis SpecState StrFacts FrontFacts CallFacts ResultFacts BitFacts VdmFacts
  StateFacts RunFacts PropFront PropState.
Import ListNotations.
Open Scope N_scope.
Local Opaque pick_string pick_u64 pick_i64 pick_eta parse_f64.

(** If all calls but those of stream 0 fail, and none of those that fail is given half of an AIS message, then
    stream 0 is answered as if they had not been made, and the parser remembers the same. *)
Theorem c09_failures_leave_no_trace ovf m p : reachable ovf p ->
  (forall i o, i <> 0 -> In o (stream_results ovf i m p) -> exists e, o = Err e) ->
  (forall i c tt fff mid channel n payload, In (i, c) m -> i <> 0 -> ~ fragment (snd c) tt fff mid channel n payload) ->
  stream_results ovf 0 m p = results ovf (stream 0 m) p /\ after ovf (map snd m) p = after ovf (stream 0 m) p.
Proof.
  revert p. induction m as [|[j [now s]] m IH]; intros p Hr He Hf; [split; reflexivity|].
  set (q := snd (parse_sentence ovf now s p)).
  assert (Q : forall i, stream_results ovf i ((j, (now, s)) :: m) p =
    (if j =? i then [fst (parse_sentence ovf now s p)] else []) ++ stream_results ovf i m q).
  { intros i. unfold stream_results. cbn [map fst snd]. rewrite results_cons. cbn [combine List.filter fst].
    destruct (j =? i); reflexivity. }
  assert (T : stream 0 ((j, (now, s)) :: m) = (if j =? 0 then [(now, s)] else []) ++ stream 0 m).
  { unfold stream. cbn [List.filter fst]. destruct (j =? 0); reflexivity. }
  destruct (IH q (reachable_step _ _ _ _ Hr)) as [A B].
  { intros i o Hi Ho. apply (He i o Hi). rewrite Q. apply in_or_app. now right. }
  { intros i c tt fff mid channel n payload Hc. apply (Hf i c). now right. }
  rewrite Q, T. cbn [map snd]. rewrite after_cons. fold q. destruct (N.eqb_spec j 0) as [-> |Hj]; cbn [app].
  - rewrite results_cons, after_cons. fold q. now rewrite A, B.
  - destruct (He j (fst (parse_sentence ovf now s p)) Hj) as [e E].
    { rewrite Q, N.eqb_refl. now left. }
    assert (P : q = p).
    { destruct (c09_error_keeps_state ovf now s p e Hr E) as [P|(tt & fff & mid & channel & n & payload & other & F & _)]; [exact P|].
      destruct (Hf j (now, s) tt fff mid channel n payload (or_introl eq_refl) Hj F). }
    rewrite P in *. auto.
Qed.
Print Assumptions c09_failures_leave_no_trace.

(** Between the halves of a message come a damaged sentence, one without a comma, one with an unknown formatter,
    an AIS sentence without numbers and a latitude with a letter in it. *)
Definition ex_failing : interleaving :=
  [(0, (ex_now, ex_first)); (1, (ex_now, lit "!AIVDM,2,2,1,A,88888888880,2*00")); (2, (ex_now, lit "$GPGGA"));
   (1, (ex_now, lit "$IIMWV,084.0,R,10.4,N,A*04")); (2, (ex_now, lit "!AIVDM,2,x,1,A,88888888880,2"));
   (1, (ex_now, lit "$GPGLL,49x6.45,N,12311.12,W,225444,A")); (0, (ex_now, ex_second))].

Lemma unusable_number s body given tt fff mid channel n payload : has_body s body given ->
  nth_error (split_on 44 body) 2 = None \/ (exists x, nth_error (split_on 44 body) 2 = Some x /\ parse_u8 x = None) \/ ~ checksum_ok body given ->
  ~ fragment s tt fff mid channel n payload.
Proof.
  intros Hb H (fields & count & number & id & ((b & g & Hb' & Hc & Hs) & _) & _ & _ & Hn & Hd & Hk & _).
  apply has_body_split in Hb, Hb'. rewrite Hb in Hb'. injection Hb' as <- <-.
  apply has_fields_split in Hs. rewrite <- Hs in H. change (nth_error ((lit "!" ++ tt ++ fff) :: fields) 2) with (nth_error fields 1) in H. destruct H as [H|[(x & H & Hx)|H]].
  - now rewrite Hn in H.
  - rewrite Hn in H. injection H as <-.
    rewrite (parse_u8_denotes _ _ Hd) in Hx by (destruct Hk as [-> | ->]; discriminate). discriminate Hx.
  - contradiction.
Qed.

Example c09_failures_example ovf : exists d,
  stream_results ovf 0 ex_failing new_parser = [Ok PsIncomplete; Ok (PsVesselStaticData d)] /\
  stream_results ovf 0 ex_failing new_parser = results ovf (stream 0 ex_failing) new_parser /\
  List.length (stream_results ovf 1 ex_failing new_parser) = 3%nat /\ List.length (stream_results ovf 2 ex_failing new_parser) = 2%nat.
Proof.
  assert (R : exists e1 e2 e3 e4 e5 d, results ovf (map snd ex_failing) new_parser =
    [Ok PsIncomplete; Err e1; Err e2; Err e3; Err e4; Err e5; Ok (PsVesselStaticData d)]).
  { destruct ovf; do 6 eexists; vm_compute; reflexivity. }
  destruct R as (e1 & e2 & e3 & e4 & e5 & d & R).
  assert (S : forall i, stream_results ovf i ex_failing new_parser = map snd (List.filter (fun x => fst x =? i)
    [(0, Ok PsIncomplete); (1, Err e1); (2, Err e2); (1, Err e3); (2, Err e4); (1, Err e5); (0, Ok (PsVesselStaticData d))])).
  { intros i. unfold stream_results. rewrite R. reflexivity. }
  exists d. split; [rewrite S; reflexivity|]. split; [|split; rewrite S; reflexivity].
  apply c09_failures_leave_no_trace.
  - now exists [].
  - intros i o Hi. rewrite S. intros Ho. apply in_map_iff in Ho as ([k o'] & <- & Ho). apply filter_In in Ho as [Ho E].
    cbn [fst] in E. apply N.eqb_eq in E as ->. cbn [snd].
    repeat (destruct Ho as [Ho|Ho]; [injection Ho as <- <-; first [contradiction|eexists; reflexivity]|]). destruct Ho.
  - intros i c tt fff mid channel n payload Hc Hi.
    repeat (destruct Hc as [Hc|Hc]; [injection Hc as <- <-; try contradiction|]); [..|destruct Hc]; cbn [snd].
    + apply (unusable_number _ (lit "!AIVDM,2,2,1,A,88888888880,2") (lit "00")).
      * right. split; [reflexivity|]. vm_compute. intuition discriminate.
      * right. right. intros [H|H]; vm_compute in H; discriminate H.
    + apply (unusable_number _ (lit "$GPGGA") []); [left; vm_compute; intuition discriminate|left; vm_compute; reflexivity].
    + apply (unusable_number _ (lit "$IIMWV,084.0,R,10.4,N,A") (lit "04")).
      * right. split; [reflexivity|]. vm_compute. intuition discriminate.
      * right. left. exists (lit "R"). split; vm_compute; reflexivity.
    + apply (unusable_number _ (lit "!AIVDM,2,x,1,A,88888888880,2") []); [left; vm_compute; intuition discriminate|].
      right. left. exists (lit "x"). split; vm_compute; reflexivity.
    + apply (unusable_number _ (lit "$GPGLL,49x6.45,N,12311.12,W,225444,A") []); [left; vm_compute; intuition discriminate|].
      right. left. exists (lit "N"). split; vm_compute; reflexivity.
Qed.
