(** C07 (message types), C16-C20, C37, C38, C62: the VDM/VDO envelope and the bit level of AIS payloads. *)
From Coq Require Import List NArith ZArith Bool String Lia.
From Verif Require Import Base Str F64 Chrono Types Util AisMod Vdm Gnss Parser
  SpecText SpecResult SpecAis StrFacts FrontFacts CallFacts ResultFacts BitFacts VdmFacts PropFront.
Import ListNotations.
Open Scope N_scope.

(** ** C07, message types *)

(** The AIS message types the crate decodes. *)
Definition decoded_message_types : list N := [1; 2; 3; 4; 5; 6; 9; 10; 18; 21; 24; 27].

Lemma dispatch_unsupported now t bv st own p :
  ~ In (pick_u64 bv 0 6) decoded_message_types -> pick_u64 bv 0 6 <> 19 ->
  dispatch_message now t bv st own p = (unsupported_message t (pick_u64 bv 0 6), p).
Proof.
  intros H H19. unfold dispatch_message. cbv zeta.
  generalize dependent (pick_u64 bv 0 6). intros n H H19. unfold decoded_message_types in H. cbn [In] in H.
  destruct n as [|n]; [reflexivity|].
  do 5 (destruct n as [n|n|]; try reflexivity; try (exfalso; apply H19; reflexivity);
        try (exfalso; apply H; tauto)).
Qed.

Theorem c07_unsupported_message ovf now s p tt fff bits t :
  one_fragment s tt fff (armor bits) -> be_value (window bits 0 6) = t ->
  ~ In t decoded_message_types ->
  parse_sentence ovf now s p =
  (Err (UnsupportedSentenceType
     (if t =? 19 then lit "Unsupported AIVDM message type: 19"
      else lit "Unsupported !" ++ fff ++ lit " message type: " ++ dec t)), p).
Proof.
  intros Hs Ht Hn. rewrite (one_fragment_bits _ _ _ _ _ _ _ Hs).
  rewrite <- pick_u64_spec in Ht by lia. destruct (N.eqb_spec t 19) as [E|E].
  - unfold dispatch_message. rewrite Ht, E. reflexivity.
  - rewrite dispatch_unsupported; rewrite Ht; [|exact Hn|exact E].
    unfold unsupported_message. do 3 f_equal.
Qed.
Print Assumptions c07_unsupported_message.

Example c07_message_example :
  let bits := be_bits 6 8 ++ be_bits 2 0 ++ be_bits 30 366999712 in
  let s := lit "!AIVDM,1,1,,A,85Mwp`0,0" in
  one_fragment s (lit "AI") (lit "VDM") (armor bits) /\ be_value (window bits 0 6) = 8 /\
  fst (parse_sentence true ex_now s new_parser)
  = Err (UnsupportedSentenceType (lit "Unsupported !VDM message type: 8")).
Proof.
  split; [|split; vm_compute; reflexivity].
  apply (check_one_fragment _ _ _ (lit "A") _ [lit "0"]). apply check_vdm; [|reflexivity].
  vm_compute. auto.
Qed.

(** ** C16 *)

(** The fragment number and the message id, if the sentence has them. *)
Definition number_is (fields : list str) (n : N) : Prop :=
  exists f, nth_error fields 1 = Some f /\ denotes f n.
Definition id_is (fields : list str) (i : N) : Prop :=
  exists f, nth_error fields 2 = Some f /\ denotes f i /\ i < 2 ^ 64.

Theorem c16_unassemblable_incomplete ovf now s p tt fff fields count c :
  vdm_with s tt fff fields -> nth_error fields 0 = Some count -> denotes count c -> c <= 255 ->
  (forall f, nth_error fields 1 = Some f -> exists n, denotes f n /\ n <= 255) ->
  (c <> 1 /\ c <> 2) \/ (c = 2 /\ (forall i, ~ id_is fields i)) \/
  (c = 2 /\ ~ number_is fields 1 /\ ~ number_is fields 2) ->
  parse_sentence ovf now s p = (Ok PsIncomplete, p).
Proof.
  intros Hs Hf Hc Hc' Hn H. rewrite (vdm_with_step _ _ _ _ _ _ _ Hs), (vdm_scan_fields _ _ _ Hf).
  rewrite (parse_u8_denotes _ _ Hc Hc').
  assert (Hp : forall n, (forall f, nth_error fields 1 = Some f -> denotes f n) ->
             nth_error fields 1 = None /\ n = 0 \/ number_is fields n ->
             vdm_payload (lit "!" ++ fff) (scan_of fields c n) p = (None, p)).
  { intros n Hn1 Hn2. unfold vdm_payload, scan_of. cbn [vf_count vf_number vf_id vf_payload vf_channel].
    destruct H as [[H1 H2]|[[-> H]|[-> [H1 H2]]]].
    - apply N.eqb_neq in H1, H2. now rewrite H1, H2.
    - change (2 =? 1) with false. change (2 =? 2) with true. cbv iota.
      destruct (nth_error fields 2) as [f|] eqn:Ef; [|reflexivity].
      destruct (parse_uint u64_max f) as [v|] eqn:Ev; [|reflexivity].
      apply parse_uint_spec in Ev as [Ev Ev']. destruct (H v). exists f. unfold u64_max in Ev'.
      split; [exact Ef|]. split; [exact Ev|]. lia.
    - change (2 =? 1) with false. change (2 =? 2) with true. cbv iota.
      destruct (match nth_error fields 2 with Some f => _ | None => _ end); [|reflexivity].
      destruct (N.eqb_spec n 1) as [->|N1].
      { destruct Hn2 as [[_ Hn2]|Hn2]; [discriminate|tauto]. }
      destruct (N.eqb_spec n 2) as [->|N2]; [|reflexivity].
      destruct Hn2 as [[_ Hn2]|Hn2]; [discriminate|tauto]. }
  destruct (nth_error fields 1) as [f|] eqn:E1.
  - destruct (Hn f eq_refl) as (n & Hd & Hle). rewrite (parse_u8_denotes _ _ Hd Hle).
    rewrite Hp; [reflexivity| |right; exists f; auto]. intros f' [= <-]. exact Hd.
  - rewrite Hp; [reflexivity| |left; auto]. discriminate.
Qed.
Print Assumptions c16_unassemblable_incomplete.

Lemma dec_is_denoted s v : s = dec v -> denotes s v.
Proof. intros ->. apply dec_denotes. Qed.

Example c16_example :
  let s := lit "!AIVDM,2,1,,A,55?MbV02>H97ac<H4eEK6VWfD4ww,0" in
  let fields := [lit "2"; lit "1"; []; lit "A"; lit "55?MbV02>H97ac<H4eEK6VWfD4ww"; lit "0"] in
  vdm_with s (lit "AI") (lit "VDM") fields /\ denotes (lit "2") 2 /\ (forall i, ~ id_is fields i) /\
  number_is fields 1 /\ fst (parse_sentence true ex_now s new_parser) = Ok PsIncomplete.
Proof.
  split; [apply check_vdm; [vm_compute; auto|reflexivity]|].
  split; [now apply dec_is_denoted|]. split.
  - intros i (f & [= <-] & Hd & _). destruct Hd as (ds & [<-|E] & [H _] & _); [tauto|discriminate].
  - split; [|vm_compute; reflexivity]. exists (lit "1"). split; [reflexivity|now apply dec_is_denoted].
Qed.

(** ** C62 *)

(** A text that is no numeral up to 255. *)
Definition unreadable (f : str) : Prop := forall v, denotes f v -> 255 < v.

Lemma parse_u8_unreadable f : unreadable f -> parse_u8 f = None.
Proof.
  intros H. destruct (parse_u8 f) as [v|] eqn:E; [|reflexivity].
  apply parse_uint_spec in E as [E E']. apply H in E. unfold u8_max in E'. lia.
Qed.

Theorem c62_unreadable_fragment_numbers ovf now s p tt fff fields bad :
  vdm_with s tt fff fields -> unreadable bad ->
  nth_error fields 0 = Some bad \/
  (nth_error fields 1 = Some bad /\
   exists count c, nth_error fields 0 = Some count /\ denotes count c /\ c <= 255) ->
  parse_sentence ovf now s p =
  (Err (InvalidSentence (lit "Failed to parse fragment count: " ++ bad)), p).
Proof.
  intros Hs Hb H. rewrite (vdm_with_step _ _ _ _ _ _ _ Hs).
  apply parse_u8_unreadable in Hb. destruct H as [H|[H (count & c & H0 & Hd & Hl)]].
  - now rewrite (vdm_scan_fields _ _ _ H), Hb.
  - now rewrite (vdm_scan_fields _ _ _ H0), (parse_u8_denotes _ _ Hd Hl), H, Hb.
Qed.
Print Assumptions c62_unreadable_fragment_numbers.

Example c62_example :
  let s := lit "!AIVDM,1,256,,A,15RTgt0PAso;90TKcjM8h6g208CQ,0" in
  vdm_with s (lit "AI") (lit "VDM")
    [lit "1"; lit "256"; []; lit "A"; lit "15RTgt0PAso;90TKcjM8h6g208CQ"; lit "0"] /\
  unreadable (lit "256") /\ unreadable [] /\
  fst (parse_sentence true ex_now s new_parser)
  = Err (InvalidSentence (lit "Failed to parse fragment count: 256")).
Proof.
  split; [apply check_vdm; [vm_compute; auto|reflexivity]|]. split.
  - intros v Hv. rewrite (denotes_unique _ _ 256 Hv); [reflexivity|now apply dec_is_denoted].
  - split; [|vm_compute; reflexivity].
    intros v (ds & [<-|E] & [H _] & _); [tauto|discriminate].
Qed.

(** ** C17 *)

Theorem c17_armor_decoded ovf bits :
  Nat.divide 6 (List.length bits) -> parse_payload ovf (armor bits) = Ok bits.
Proof.
  intros H. destruct (parse_payload_armor ovf bits) as (k & _ & Hk & ->).
  rewrite (Hk H). now rewrite app_nil_r.
Qed.
Print Assumptions c17_armor_decoded.

Theorem c17_armor_injective ovf a b :
  armored a -> armored b -> parse_payload ovf a = parse_payload ovf b -> a = b.
Proof.
  intros Ha Hb H. apply armored_is_armor in Ha as (x & Hx & ->), Hb as (y & Hy & ->).
  rewrite !c17_armor_decoded in H.
  - now injection H as ->.
  - exists (List.length (armor y)). lia.
  - exists (List.length (armor x)). lia.
Qed.
Print Assumptions c17_armor_injective.

Example c17_example :
  parse_payload true (lit "0Ww`") =
  Ok (be_bits 6 0 ++ be_bits 6 39 ++ be_bits 6 63 ++ be_bits 6 40) /\
  armor (be_bits 6 0 ++ be_bits 6 39 ++ be_bits 6 63 ++ be_bits 6 40) = lit "0Ww`" /\
  armored (lit "0Ww`").
Proof.
  split; [vm_compute; reflexivity|]. split; [vm_compute; reflexivity|].
  apply check_armored. reflexivity.
Qed.

(** ** C18 *)

(** The only protection is the subtraction overflow of a checked build: there a character below '0'
    (modulo 256) panics. *)
Theorem c18_checked_build_panics now s p tt fff payload :
  one_fragment s tt fff payload -> Exists (fun c => c mod 256 < 48) payload ->
  parse_sentence true now s p = (Panic, p).
Proof.
  intros Hs He. rewrite (one_fragment_step _ _ _ _ _ _ _ Hs). unfold decode_payload.
  now rewrite parse_payload_panic.
Qed.
Print Assumptions c18_checked_build_panics.

(** Every other payload is read as if it were the armored text of some bits. *)
Theorem c18_anything_is_decoded ovf now s p tt fff payload :
  one_fragment s tt fff payload -> ovf = false \/ Forall (fun c => 48 <= c mod 256) payload ->
  exists bits, List.length bits = (6 * List.length payload)%nat /\
    forall s', one_fragment s' tt fff (armor bits) ->
    parse_sentence ovf now s p = parse_sentence ovf now s' p.
Proof.
  intros Hs Ho. destruct (parse_payload_total ovf payload Ho) as (bits & Hl & Hb). exists bits.
  split; [exact Hl|]. intros s' Hs'.
  rewrite (one_fragment_step _ _ _ _ _ _ _ Hs), (one_fragment_step _ _ _ _ _ _ _ Hs').
  unfold decode_payload. rewrite Hb, c17_armor_decoded; [reflexivity|]. exists (List.length payload). lia.
Qed.
Print Assumptions c18_anything_is_decoded.

(** Only characters outside the alphabet, and a full report in both build profiles. *)
Theorem c18_illegal_character_refuted :
  exists s payload, one_fragment s (lit "AI") (lit "VDM") payload /\
    (forall c, In c payload -> ~ In c armor_alphabet) /\
    forall ovf, exists d, fst (parse_sentence ovf ex_now s new_parser) = Ok (PsVesselDynamicData d).
Proof.
  exists (lit "!AIVDM,1,1,,A,yXxyz{|}~,0"), (lit "yXxyz{|}~"). split.
  - apply (check_one_fragment _ _ _ (lit "A") _ [lit "0"]). apply check_vdm; [|reflexivity].
    vm_compute. auto.
  - split.
    + intros c Hc Ha.
      assert (H : forallb (fun c => negb (existsb (N.eqb c) armor_alphabet)) (lit "yXxyz{|}~") = true)
        by reflexivity.
      rewrite forallb_forall in H. apply H, negb_true_iff in Hc.
      assert (E : existsb (N.eqb c) armor_alphabet = true) by (apply existsb_exists; exists c; now rewrite N.eqb_refl).
      congruence.
    + intros []; eexists; vm_compute; reflexivity.
Qed.
Print Assumptions c18_illegal_character_refuted.

Example c18_example :
  Exists (fun c => c mod 256 < 48) (lit "15R!gt") /\
  Forall (fun c => 48 <= c mod 256) (lit "yXxyz{|}~") /\
  parse_payload true (lit "X") = parse_payload true (lit "`").
Proof.
  split; [|split; [|vm_compute; reflexivity]].
  - do 3 apply Exists_cons_tl. apply Exists_cons_hd. reflexivity.
  - repeat constructor; intros X; discriminate X.
Qed.

(** ** C19 *)

Theorem c19_unsigned_fields bv i n :
  (n <= 64)%nat -> pick_u64 bv i n = be_value (window bv i n).
Proof. exact (pick_u64_spec bv i n). Qed.
Print Assumptions c19_unsigned_fields.

Theorem c19_signed_fields bv i n :
  (0 < n <= 64)%nat -> pick_i64 bv i n = signed_value (window bv i n).
Proof. intros H. destruct n as [|n]; [lia|]. apply pick_i64_spec. lia. Qed.
Print Assumptions c19_signed_fields.

Lemma windows a m b k :
  window (a ++ m ++ b) (List.length a) (List.length m) = m /\
  window (a ++ m) (List.length a) (List.length m + k) = m ++ repeat false k.
Proof.
  split; [apply window_middle|]. rewrite window_split. f_equal.
  - rewrite <- (app_nil_r (a ++ m)), <- app_assoc. apply window_middle.
  - rewrite <- app_length, <- (app_nil_r (a ++ m)) at 1.
    rewrite <- (Nat.add_0_r (List.length (a ++ m))), window_app_r. unfold window.
    generalize 0%nat. induction k as [|k IH]; intros i; [reflexivity|].
    cbn [seq map repeat]. rewrite IH. now destruct i.
Qed.

(** Fields inside and across the end, without windows. *)
Theorem c19_inside a m b :
  (0 < List.length m <= 64)%nat ->
  pick_u64 (a ++ m ++ b) (List.length a) (List.length m) = be_value m /\
  pick_i64 (a ++ m ++ b) (List.length a) (List.length m) = signed_value m.
Proof.
  intros H. rewrite c19_unsigned_fields, c19_signed_fields by lia. now rewrite (proj1 (windows a m b 0)).
Qed.
Print Assumptions c19_inside.

Theorem c19_past_the_end a m k :
  (0 < List.length m + k <= 64)%nat ->
  pick_u64 (a ++ m) (List.length a) (List.length m + k) = be_value (m ++ repeat false k) /\
  pick_i64 (a ++ m) (List.length a) (List.length m + k) = signed_value (m ++ repeat false k).
Proof.
  intros H. rewrite c19_unsigned_fields, c19_signed_fields by lia. now rewrite (proj2 (windows a m [] k)).
Qed.
Print Assumptions c19_past_the_end.

Example c19_example :
  pick_u64 [true; false; true; true] 1 5 = 12 /\ pick_i64 [true; false; true; true] 2 2 = (-1)%Z /\
  pick_i64 [true; false; true; true] 2 4 = (-4)%Z /\ pick_u64 (repeat true 64) 0 64 = 2 ^ 64 - 1.
Proof. repeat split; vm_compute; reflexivity. Qed.

(** ** C20 *)

Theorem c20_text_decoded E bv i n text codes :
  text_field n text codes -> window bv i (6 * n) = flat_map (be_bits 6) codes ->
  @pick_string E bv i n = Ok text.
Proof. exact (pick_string_field bv i n text codes). Qed.
Print Assumptions c20_text_decoded.

Theorem c20_text_range E bv i n :
  exists text, @pick_string E bv i n = Ok text /\ (List.length text <= n)%nat /\
    Forall encodable text /\ ~ In 64 text /\ (forall t, text <> t ++ [32]).
Proof. exact (pick_string_range bv i n). Qed.
Print Assumptions c20_text_range.

Example c20_example :
  let codes := map six_code (lit "MS A-1_?") ++ repeat 32 2 ++ [0; 17; 4] in
  text_field 13 (lit "MS A-1_?") codes /\
  @pick_string ParseError (flat_map (be_bits 6) codes) 0 13 = Ok (lit "MS A-1_?").
Proof.
  split; [|vm_compute; reflexivity].
  split; [reflexivity|]. split; [repeat constructor; reflexivity|].
  split; [repeat constructor; intros X; discriminate X|].
  split; [cbn; intros H; repeat (destruct H as [H|H]; [discriminate|]); exact H|].
  split; [intros t Ht; apply (f_equal (@rev N)) in Ht; rewrite rev_app_distr in Ht; discriminate Ht|].
  exists 2%nat, [0; 17; 4]. split; [reflexivity|]. right. now exists [17; 4].
Qed.

(** ** C37 *)

Theorem c37_trailing_zero_characters ovf now s s' p tt fff payload k :
  one_fragment s tt fff payload -> one_fragment s' tt fff (payload ++ repeat 48 k) ->
  parse_sentence ovf now s p = parse_sentence ovf now s' p.
Proof.
  intros Hs Hs'. rewrite (one_fragment_step _ _ _ _ _ _ _ Hs), (one_fragment_step _ _ _ _ _ _ _ Hs').
  unfold decode_payload. rewrite parse_payload_zeros.
  destruct (parse_payload ovf payload) as [bv|e|]; try reflexivity.
  apply same_bits_dispatch. intros i. symmetry. apply same_bits_zeros.
Qed.
Print Assumptions c37_trailing_zero_characters.

Example c37_example :
  let s := lit "!AIVDM,1,1,,A,15RTgt0PAso;90TKcjM8h6g208CQ,0" in
  let s' := lit "!AIVDM,1,1,,A,15RTgt0PAso;90TKcjM8h6g208CQ000,0" in
  one_fragment s (lit "AI") (lit "VDM") (lit "15RTgt0PAso;90TKcjM8h6g208CQ") /\
  one_fragment s' (lit "AI") (lit "VDM") (lit "15RTgt0PAso;90TKcjM8h6g208CQ" ++ repeat 48 3).
Proof.
  split; apply (check_one_fragment _ _ _ (lit "A") _ [lit "0"]); (apply check_vdm; [|reflexivity]);
    vm_compute; auto.
Qed.

(** ** C38 *)

Theorem c38_rest_ignored ovf now s s' p tt fff count number id channel payload :
  vdm_sentence s tt fff count number id channel payload ->
  vdm_sentence s' tt fff count number id channel payload ->
  parse_sentence ovf now s p = parse_sentence ovf now s' p.
Proof.
  intros (m & Hs) (m' & Hs').
  rewrite (vdm_with_step _ _ _ _ _ _ _ Hs), (vdm_with_step _ _ _ _ _ _ _ Hs').
  now rewrite !(vdm_scan_fields _ _ count) by reflexivity.
Qed.
Print Assumptions c38_rest_ignored.

Example c38_example :
  let v s := vdm_sentence s (lit "AI") (lit "VDM") (lit "1") (lit "1") [] (lit "A")
               (lit "15RTgt0PAso;90TKcjM8h6g208CQ") in
  v (lit "!AIVDM,1,1,,A,15RTgt0PAso;90TKcjM8h6g208CQ") /\
  v (lit "!AIVDM,1,1,,A,15RTgt0PAso;90TKcjM8h6g208CQ,5,r003669945,1120809600*").
Proof.
  split; [exists []|exists [lit "5"; lit "r003669945"; lit "1120809600"]];
    (apply check_vdm; [vm_compute; auto|reflexivity]).
Qed.
