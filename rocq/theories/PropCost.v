(** C92: work per received sentence. *)
From stdpp Require Import gmap.
From Coq Require Import List NArith ZArith Bool String Lia.
From Verif Require Import Base Str F64 Chrono Types Util AisMod Vdm Gnss Parser Cost SpecText SpecResult SpecAis SpecState SpecGnss SpecCost
  StrFacts FrontFacts ResultFacts CallFacts StateFacts PropFront PropState PropGsv.
Import ListNotations.
Open Scope N_scope.

Section Sum.
Let f := fun (_ : str) text sum => text_size text + sum.

Lemma sum_insert (m : gmap str str) k v : m !! k = None -> map_fold f 0 (<[k := v]> m) = text_size v + map_fold f 0 m.
Proof. intros H. rewrite (map_fold_insert_L f); [reflexivity| |exact H]. intros. unfold f. lia. Qed.

Lemma sum_delete (m : gmap str str) k v : m !! k = Some v -> text_size v + map_fold f 0 (delete k m) = map_fold f 0 m.
Proof. intros H. rewrite <- sum_insert with (k := k) by apply lookup_delete. now rewrite insert_delete. Qed.
End Sum.

Lemma stored_insert k v (p : NmeaParser) : stored_size (push_string k v p) <= text_size v + stored_size p.
Proof.
  unfold stored_size, push_string. cbn [saved_fragments].
  rewrite <- insert_delete_insert, sum_insert by apply lookup_delete.
  destruct (saved_fragments p !! k) as [x|] eqn:E.
  - rewrite <- (sum_delete (saved_fragments p) k x E). lia.
  - now rewrite delete_notin by exact E.
Qed.

Lemma stored_delete k (p : NmeaParser) :
  stored_size (snd (pull_string k p)) + match fst (pull_string k p) with Some v => text_size v | None => 0 end = stored_size p.
Proof.
  unfold stored_size, pull_string. cbn [saved_fragments fst snd].
  destruct (saved_fragments p !! k) as [x|] eqn:E.
  - rewrite <- (sum_delete (saved_fragments p) k x E). lia.
  - rewrite delete_notin by exact E. lia.
Qed.

Lemma stored_vsds p q : saved_fragments p = saved_fragments q -> stored_size p = stored_size q.
Proof. unfold stored_size. now intros ->. Qed.

(** ** The loops *)

Lemma split_steps_bound text : split_steps text <= text_size text.
Proof.
  unfold split_steps, text_size. enough (List.length (split_on 44 text) <= List.length text + 1)%nat by lia.
  induction text as [|c t IH]; [cbn; lia|]. cbn [split_on]. destruct (c =? 44); cbn [List.length]; [lia|].
  destruct (split_on 44 t); cbn [List.length] in *; lia.
Qed.

Lemma scan_steps_bound num split : scan_steps num split <= N.of_nat (List.length split).
Proof.
  revert num. induction split as [|s rest IH]; intros num; [cbn; lia|]. cbn [scan_steps List.length].
  pose proof (IH (S num)). destruct num as [|[|[|num]]]; try destruct (parse_u8 s); lia.
Qed.

Lemma payload_steps_bound ovf payload : payload_steps ovf payload <= 7 * N.of_nat (List.length payload).
Proof. induction payload as [|c t IH]; [cbn; lia|]. cbn [payload_steps List.length]. destruct (payload_char ovf c); lia. Qed.

Lemma checksum_steps_bound body : checksum_steps body <= N.of_nat (List.length body).
Proof. unfold checksum_steps. rewrite skipn_length. lia. Qed.

Lemma collect_steps_bound nav t c range : forall p,
  collect_steps t c range p + 7 * stored_size (snd (gsv_collect nav t c range p)) <=
  N.of_nat (List.length range) + 7 * stored_size p.
Proof.
  induction range as [|i rest IH]; intros p; [cbn [collect_steps gsv_collect snd List.length]; lia|].
  cbn [collect_steps gsv_collect List.length].
  pose proof (stored_delete (make_gsv_key t c i) p) as D. destruct (pull_string (make_gsv_key t c i) p) as [o p1].
  cbn [fst snd] in D. specialize (IH p1). destruct (gsv_collect nav t c rest p1) as [v p2]. cbn [snd] in *.
  destruct o as [x|]; [|lia]. pose proof (split_steps_bound x). unfold text_size in *. lia.
Qed.

(** ** The handlers *)

Lemma dispatch_fragments now t bv st own p : saved_fragments (snd (dispatch_message now t bv st own p)) = saved_fragments p.
Proof.
  destruct (dispatch_message_case now t bv st own p); try reflexivity.
  unfold handle_t24. match goal with |- context [if ?b then _ else _] => destruct b end; [|reflexivity].
  destruct (t24_fields bv own _) as [vsd| |]; [|reflexivity|reflexivity].
  unfold t24_store, pull_vsd. destruct (saved_vsds p !! _); reflexivity.
Qed.

Lemma split_field_length text : forall f, In f (split_on 44 text) -> (List.length f <= List.length text)%nat.
Proof.
  induction text as [|c t IH]; intros f.
  - cbn. intros [<-|[]]. reflexivity.
  - cbn [split_on]. destruct (c =? 44).
    + intros [<-|H]; cbn [List.length]; [lia|]. apply IH in H. lia.
    + destruct (split_on 44 t) as [|g gs].
      * intros [<-|[]]. cbn. lia.
      * intros [<-|H]; cbn [List.length]; [specialize (IH g (or_introl eq_refl)); lia|].
        specialize (IH f (or_intror H)). lia.
Qed.

Lemma scan_payload split : forall num f g, vdm_scan num f split = Ok g ->
  vf_payload g = vf_payload f \/ In (vf_payload g) split.
Proof.
  induction split as [|s rest IH]; intros num f g; cbn [vdm_scan].
  - intros [= ->]. now left.
  - destruct num as [|[|[|[|[|[|num]]]]]]; try (destruct (parse_u8 s); [|discriminate]);
      intros H; apply IH in H as [H|H]; cbn [vf_payload] in H; cbn [In]; auto.
Qed.

Lemma vdm_steps_bound ovf now t body st p :
  vdm_steps ovf t body p + 7 * stored_size (snd (handle_vdm ovf now t body st p)) <= 8 * text_size body + 7 * stored_size p.
Proof.
  unfold vdm_steps, handle_vdm. pose proof (scan_steps_bound 0 (split_on 44 body)) as S.
  pose proof (split_steps_bound body) as B. unfold split_steps in B.
  destruct (vdm_scan 0 vdm_start (split_on 44 body)) as [f|e|] eqn:E; cbn [snd]; try lia.
  assert (L : (List.length (vf_payload f) <= List.length body)%nat).
  { apply scan_payload in E as [E|E]; [rewrite E; cbn; lia|now apply split_field_length]. }
  assert (W : forall payload q, payload_steps ovf payload + 7 * stored_size (snd
      match parse_payload ovf payload with
      | Panic => (Panic, q)
      | Err _ => (Ok PsIncomplete, q)
      | Ok bv => dispatch_message now t bv (unwrap_or st StOther) (str_eqb t (lit "!VDO")) q
      end) <= 7 * N.of_nat (List.length payload) + 7 * stored_size q).
  { intros payload q. pose proof (payload_steps_bound ovf payload).
    destruct (parse_payload ovf payload) as [bv|e|]; cbn [snd]; try lia.
    rewrite (stored_vsds _ q) by apply dispatch_fragments. lia. }
  unfold text_size in *.
  unfold vdm_payload. destruct (vf_count f =? 1); [|destruct (vf_count f =? 2)]; cbn [fst snd].
  - specialize (W (vf_payload f) p). lia.
  - destruct (vf_id f) as [mid|]; cbn [fst snd]; [|lia]. cbv zeta.
    destruct (vf_number f =? 1); [|destruct (vf_number f =? 2)]; cbn [fst snd].
    + match goal with |- context [pull_string ?k p] => pose proof (stored_delete k p) as D; destruct (pull_string k p) as [[x|] p1] end;
        cbn [fst snd] in *; unfold text_size in D.
      * specialize (W (vf_payload f ++ x) p1). rewrite app_length in W. lia.
      * match goal with |- context [push_string ?k ?v p1] => pose proof (stored_insert k v p1) end. unfold text_size in *. lia.
    + match goal with |- context [pull_string ?k p] => pose proof (stored_delete k p) as D; destruct (pull_string k p) as [[x|] p1] end;
        cbn [fst snd] in *; unfold text_size in D.
      * specialize (W (x ++ vf_payload f) p1). rewrite app_length in W. lia.
      * match goal with |- context [push_string ?k ?v p1] => pose proof (stored_insert k v p1) end. unfold text_size in *. lia.
    + lia.
  - lia.
Qed.

Lemma gsv_range_length ovf c range : gsv_range ovf c = Some range -> N.of_nat (List.length range) <= c.
Proof.
  unfold gsv_range. destruct (c <? u32_max); [|destruct ovf; [discriminate|]]; intros [= <-].
  - rewrite map_length, seq_length. lia.
  - cbn. lia.
Qed.

Lemma gsv_steps_bound ovf body nav p c :
  (forall count num, number parse_u32 (split_on 44 body) 1 = Ok count -> number parse_u32 (split_on 44 body) 2 = Ok num ->
     unwrap_or count 0 <= c) ->
  gsv_steps ovf body p + 7 * stored_size (snd (handle_gsv ovf body nav p)) <= 8 * text_size body + 2 * c + 7 * stored_size p.
Proof.
  intros H. unfold gsv_steps, handle_gsv. pose proof (split_steps_bound body). cbv zeta.
  destruct (number parse_u32 (split_on 44 body) 1) as [count|e|]; cbn [snd]; try lia.
  destruct (number parse_u32 (split_on 44 body) 2) as [num|e|]; cbn [snd]; try lia.
  specialize (H count num eq_refl eq_refl).
  match goal with |- context [push_string ?k ?v p] => pose proof (stored_insert k v p); set (p1 := push_string k v p) in * end.
  destruct (gsv_range ovf (unwrap_or count 0)) as [range|] eqn:R; cbn [snd]; [|lia].
  apply gsv_range_length in R. destruct (_ =? _); cbn [snd]; [|lia].
  match goal with |- context [gsv_collect ?n ?t ?c ?r p1] => pose proof (collect_steps_bound n t c r p1) as C; destruct (gsv_collect n t c r p1) as [v p2] end.
  cbn [snd] in *. lia.
Qed.

(** ** The call *)

Lemma steps_ok ovf s p body given : has_body s body given -> checksum_ok body given ->
  parse_steps ovf s p = checksum_steps body + body_steps ovf body p.
Proof.
  intros Hb Hc. apply has_body_split in Hb. unfold parse_steps. rewrite Hb, hex2_checksum.
  destruct Hc as [-> | ->].
  - rewrite (str_eqb_refl []). cbn [negb]. now rewrite andb_false_r.
  - now rewrite str_eqb_refl.
Qed.

Lemma steps_bad ovf s p body given : has_body s body given -> ~ checksum_ok body given ->
  parse_steps ovf s p = checksum_steps body.
Proof.
  intros Hb Hc. apply has_body_split in Hb. unfold parse_steps. rewrite Hb, hex2_checksum.
  destruct (str_eqb_spec (nmea_checksum body) given) as [E|E]; [exfalso; apply Hc; right; now symmetry|].
  destruct (str_eqb_spec given []) as [E'|E']; [exfalso; apply Hc; now left|]. cbn [negb andb]. lia.
Qed.

Lemma body_steps_type ovf body p : body_steps ovf body p =
  match before_first 44 body with
  | None => 0
  | Some t0 => match parse_type t0 with None => 0 | Some (_, _, t2) => dispatch_steps ovf t2 body p end
  end.
Proof.
  unfold body_steps, parse_type. destruct (before_first 44 body) as [t0|]; [|reflexivity].
  destruct (recognize (lit "$") nav_of_talker t0) as [[nav t1]|]; [|reflexivity].
  destruct (recognize (lit "!") station_of_talker t1) as [[st t2]|]; reflexivity.
Qed.

Lemma body_steps_recognized ovf body p t rest nav st t2 : body = t ++ lit "," ++ rest -> plain t -> recognized t nav st t2 ->
  body_steps ovf body p = dispatch_steps ovf t2 body p.
Proof.
  intros Hbody Hp Hr. rewrite body_steps_type. rewrite Hbody at 1. change (lit "," ++ rest) with (44 :: rest).
  rewrite before_first_app by exact Hp. apply parse_type_recognized in Hr. now rewrite Hr.
Qed.

Lemma body_length s body given : has_body s body given -> (List.length body <= List.length s)%nat.
Proof. intros [(_ & -> & _)|(-> & _)]; [reflexivity|]. rewrite app_length. lia. Qed.

Lemma number_announced s tt rest body given count num : has_body s body given -> checksum_ok body given ->
  body = (lit "$" ++ tt ++ lit "GSV") ++ lit "," ++ rest -> plain tt -> byte_len tt = 2%nat ->
  number parse_u32 (split_on 44 body) 1 = Ok count -> number parse_u32 (split_on 44 body) 2 = Ok num ->
  gsv_part s tt (unwrap_or count 0) (unwrap_or num 0).
Proof.
  intros Hb Hc Hbody Hp Ht E1 E2.
  pose proof (gsv_type_plain _ Hp) as Hp'.
  assert (Hf : split_on 44 body = (lit "$" ++ tt ++ lit "GSV") :: split_on 44 rest) by (rewrite Hbody; now apply split_on_app).
  pose proof (number_u32_field (split_on 44 body) 1) as H1. rewrite E1 in H1.
  pose proof (number_u32_field (split_on 44 body) 2) as H2. rewrite E2 in H2.
  rewrite Hf in H1, H2. cbn [field nth] in H1, H2.
  exists (split_on 44 rest). split; [|split; [exact H1|exact H2]].
  split; [|split; [apply split_on_nonempty|now rewrite <- byte_len_spec]].
  exact (sentence_of _ _ _ _ _ Hb Hc Hbody Hp').
Qed.

(** The work of a call is paid for by the sentence, by the size of the group it announces, and by the texts
    that the call takes out of the memory. *)
Theorem c92_call ovf now s p c : announces_at_most c s ->
  parse_steps ovf s p + 7 * stored_size (snd (parse_sentence ovf now s p)) <= 9 * text_size s + 2 * c + 7 * stored_size p.
Proof.
  intros Ha.
  assert (G : forall body given d q, has_body s body given ->
    d + 7 * stored_size q <= 8 * text_size body + 2 * c + 7 * stored_size p ->
    checksum_steps body + d + 7 * stored_size q <= 9 * text_size s + 2 * c + 7 * stored_size p).
  { intros body given d q Hb H. apply body_length in Hb. pose proof (checksum_steps_bound body). unfold text_size in *. lia. }
  destruct (parse_call ovf now s p) as [body given Hb Hc|body given Hb Hc Hp|body given t rest Hb Hc Hbody Hp Ht
    |body given tt fff rest r Hb Hc Hbody Hp Ht Hr|body given tt rest Hb Hc Hbody Hp Ht
    |body given tt fff rest Hb Hc Hbody Hp Ht Hf|body given t rest nav st t2 Hb Hc Hbody Hp Hr Hn]; cbn [snd].
  - rewrite (steps_bad _ _ _ _ _ Hb Hc). pose proof (G body given 0 p Hb). lia.
  - rewrite (steps_ok _ _ _ _ _ Hb Hc), body_steps_type, (proj2 (before_first_none _ _) Hp). apply (G _ given); [exact Hb|lia].
  - rewrite (steps_ok _ _ _ _ _ Hb Hc), body_steps_type. apply (G _ given); [exact Hb|].
    rewrite Hbody at 1. change (lit "," ++ rest) with (44 :: rest).
    rewrite before_first_app by exact Hp. rewrite Ht. lia.
  - rewrite (steps_ok _ _ _ _ _ Hb Hc). apply (G _ given); [exact Hb|].
    rewrite (body_steps_recognized ovf body p (lit "$" ++ tt ++ fff) rest (Some (nav_of_talker tt)) None (lit "$" ++ fff) Hbody);
      [| |apply RGnss; [exact Ht|eapply plain_gnss_len; eassumption]].
    2:{ repeat apply plain_app; [now apply plain_lit_dec|exact Hp|]. destruct Hr; now apply plain_lit_dec. }
    pose proof (split_steps_bound body).
    assert (E : dispatch_steps ovf (lit "$" ++ fff) body p = split_steps body) by (destruct Hr; reflexivity).
    rewrite E. lia.
  - rewrite (steps_ok _ _ _ _ _ Hb Hc). apply (G _ given); [exact Hb|].
    rewrite (body_steps_recognized ovf body p (lit "$" ++ tt ++ lit "GSV") rest (Some (nav_of_talker tt)) None (lit "$" ++ lit "GSV") Hbody);
      [|now apply gsv_type_plain|apply RGnss; [exact Ht|reflexivity]].
    change (dispatch_steps ovf (lit "$" ++ lit "GSV") body p) with (gsv_steps ovf body p).
    apply gsv_steps_bound. intros count num E1 E2. apply (Ha tt _ (unwrap_or num 0)).
    exact (number_announced _ _ _ _ _ _ _ Hb Hc Hbody Hp Ht E1 E2).
  - rewrite (steps_ok _ _ _ _ _ Hb Hc). apply (G _ given); [exact Hb|].
    rewrite (body_steps_recognized ovf body p (lit "!" ++ tt ++ fff) rest None (Some (station_of_talker tt)) (lit "!" ++ fff) Hbody);
      [| |apply RAis; [exact Ht|destruct Hf as [-> | ->]; reflexivity]].
    2:{ repeat apply plain_app; [now apply plain_lit_dec|exact Hp|]. destruct Hf as [-> | ->]; now apply plain_lit_dec. }
    assert (E : dispatch_steps ovf (lit "!" ++ fff) body p = vdm_steps ovf (lit "!" ++ fff) body p)
      by (destruct Hf as [-> | ->]; reflexivity).
    rewrite E. pose proof (vdm_steps_bound ovf now (lit "!" ++ fff) body (Some (station_of_talker tt)) p). lia.
  - rewrite (steps_ok _ _ _ _ _ Hb Hc), (body_steps_recognized ovf body p t rest nav st t2 Hbody Hp Hr).
    apply (G _ given); [exact Hb|]. unfold dispatch_steps, handled_types in *. cbn [In existsb] in *.
    repeat match goal with |- context [str_eqb t2 ?x] =>
      destruct (str_eqb_spec t2 x) as [->|?]; [exfalso; apply Hn; tauto|] end.
    cbn [orb]. lia.
Qed.
Print Assumptions c92_call.

Lemma announces_always s : announces_at_most (2 ^ 32 - 1) s.
Proof. intros tt c n (fields & _ & [(_ & ->)|(_ & H)] & _); lia. Qed.

Lemma work_bound ovf h c : Forall (fun x : datetime * str => announces_at_most c (snd x)) h -> forall p,
  work ovf h p <= 9 * received_size h + 2 * c * N.of_nat (List.length h) + 7 * stored_size p.
Proof.
  induction 1 as [|[now s] h H _ IH]; intros p; cbn [work received_size List.length]; [lia|].
  pose proof (c92_call ovf now s p c H). specialize (IH (snd (parse_sentence ovf now s p))). lia.
Qed.

(** The work for a whole stream is proportional to its length if the announced groups are small. *)
Theorem c92_total ovf h c : Forall (fun x : datetime * str => announces_at_most c (snd x)) h ->
  work ovf h new_parser <= 9 * received_size h + 2 * c * N.of_nat (List.length h).
Proof. intros H. pose proof (work_bound ovf h c H new_parser) as W. change (stored_size new_parser) with 0 in W. lia. Qed.
Print Assumptions c92_total.

(** Whatever is received, the work has a bound that depends on the amount of text only. *)
Theorem c92_ends ovf h :
  work ovf h new_parser <= 9 * received_size h + 2 * (2 ^ 32 - 1) * N.of_nat (List.length h).
Proof. apply c92_total. apply List.Forall_forall. intros x _. apply announces_always. Qed.
Print Assumptions c92_ends.

(** But every GSV sentence costs as many rounds as the group size it announces. *)
Theorem c92_group ovf s p tt c n : gsv_part s tt c n -> c < 2 ^ 32 - 1 -> c <= parse_steps ovf s p.
Proof.
  intros (fields & Hs & Hc & Hn) Hl. pose proof Hs as ((body & given & Hb & Hk & Hf) & Hne & Ht).
  pose proof (gsv_with_plain _ _ _ Hs) as Hp. pose proof Hf as (_ & _ & Hj). rewrite join_cons in Hj by exact Hne.
  apply has_fields_split in Hf. symmetry in Hf. rewrite <- byte_len_spec in Ht.
  rewrite (steps_ok _ _ _ _ _ Hb Hk).
  rewrite (body_steps_recognized ovf body p (lit "$" ++ tt ++ lit "GSV") _ (Some (nav_of_talker tt)) None (lit "$" ++ lit "GSV") Hj);
    [|now apply gsv_type_plain|apply RGnss; [exact Ht|reflexivity]].
  change (dispatch_steps ovf (lit "$" ++ lit "GSV") body p) with (gsv_steps ovf body p).
  unfold gsv_steps. cbv zeta.
  assert (E : forall i v, count_field (nth i fields []) v -> exists o, number parse_u32 (split_on 44 body) (S i) = Ok o /\ unwrap_or o 0 = v).
  { intros i v H. rewrite Hf. unfold number, pick_number_field. cbn [field nth]. destruct H as [(-> & ->)|(D & L)].
    - exists None. split; reflexivity.
    - destruct (nth i fields []) as [|x f] eqn:Ef.
      + destruct D as (ds & [<-|E] & (N0 & _) & _); [now destruct N0|discriminate E].
      + exists (Some v). cbn [str_eqb negb]. split; [|reflexivity].
        unfold parse_u32. rewrite (proj2 (parse_uint_spec u32_max (x :: f) v)); [reflexivity|]. split; [exact D|]. unfold u32_max. lia. }
  destruct (E _ _ Hc) as (oc & -> & Ec). destruct (E _ _ Hn) as (on & -> & En). rewrite Ec.
  unfold gsv_range. replace (c <? u32_max) with true by (symmetry; apply N.ltb_lt; unfold u32_max; lia).
  rewrite map_length, seq_length. lia.
Qed.
Print Assumptions c92_group.

Definition ex_long_group : str := lit "$GPGSV,4294967294,1".

Lemma ex_long_part : gsv_part ex_long_group (lit "GP") 4294967294 1.
Proof.
  exists (tl (split_on 44 ex_long_group)). split; [split; [|split; [vm_compute; discriminate|reflexivity]]|].
  - apply check_sentence. vm_compute. auto.
  - split; right; (split; [|reflexivity]).
    + change (nth 0 (tl (split_on 44 ex_long_group)) []) with (dec 4294967294). apply dec_denotes.
    + change (nth 1 (tl (split_on 44 ex_long_group)) []) with (dec 1). apply dec_denotes.
Qed.

(** The work for one sentence is not proportional to its length: 19 characters cost more than four thousand
    million rounds, in every state. *)
Theorem c92_proportional_refuted : List.length ex_long_group = 19%nat /\
  forall ovf p, 4294967294 <= parse_steps ovf ex_long_group p.
Proof. split; [reflexivity|]. intros ovf p. exact (c92_group ovf _ p _ _ _ ex_long_part eq_refl). Qed.
Print Assumptions c92_proportional_refuted.

(** A group of three sentences with an AIS message in two halves in between: the announced sizes are small,
    and the rounds of the last GSV sentence include those for the two that were kept. *)
Example c92_example :
  let h := [(ex_now, ex_gsv3); (ex_now, ex_gsv1); (ex_now, ex_gsv2)] in
  let p := after true [(ex_now, ex_gsv3); (ex_now, ex_gsv1)] new_parser in
  Forall (fun x : datetime * str => announces_at_most 3 (snd x)) h /\
  parse_steps true ex_gsv3 new_parser = 78 /\ stored_size p = 123 /\ parse_steps true ex_gsv2 p = 162 /\
  work true [(ex_now, ex_gsv3); (ex_now, ex_gsv1); (ex_now, ex_first); (ex_now, ex_gsv2); (ex_now, ex_second)] new_parser = 941.
Proof.
  cbv zeta. split; [|vm_compute; auto].
  destruct ex_gsv_group as [_ G]. unfold ex_gsv_calls in G.
  apply List.Forall_cons_iff in G as [G3 G]. apply List.Forall_cons_iff in G as [G1 G]. apply List.Forall_cons_iff in G as [G2 _].
  cbn [fst snd] in G1, G2, G3.
  assert (W : forall s n, gsv_message s (lit "GP") 3 n (ex_gsv_fields n) -> announces_at_most 3 s).
  { intros s n M tt c' n' H. assert (P : gsv_part s (lit "GP") 3 n) by (destruct M; eexists; eauto).
    destruct (gsv_part_unique _ _ _ _ _ _ _ P H) as (_ & <- & _). lia. }
  repeat (apply List.Forall_cons); cbn [snd]; eauto using List.Forall_nil.
Qed.
