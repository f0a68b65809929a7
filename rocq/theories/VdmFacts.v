(** Facts about the VDM/VDO block of [parse_sentence]. *)
From Coq Require Import List NArith ZArith Bool String Lia.
From Verif Require Import Base Str F64 Chrono Types Util AisMod Vdm Gnss Parser
  SpecText SpecResult SpecAis StrFacts FrontFacts CallFacts ResultFacts BitFacts.
Import ListNotations.
Open Scope N_scope.

(** ** Bits past the end *)

Lemma same_bits_loop a b i n r : same_bits a b -> pick_loop a i n r = pick_loop b i n r.
Proof.
  intros H. revert i r. induction n as [|n IH]; intros i r; cbn [pick_loop]; [reflexivity|].
  now rewrite H, IH.
Qed.

Lemma same_bits_u64 a b i n : same_bits a b -> pick_u64 a i n = pick_u64 b i n.
Proof. intros H. now apply same_bits_loop. Qed.

Lemma same_bits_i64 a b i n : same_bits a b -> pick_i64 a i n = pick_i64 b i n.
Proof. intros H. unfold pick_i64. now rewrite (same_bits_loop a b i n 0 H). Qed.

Lemma same_bits_chars a b i n : same_bits a b -> pick_chars a i n = pick_chars b i n.
Proof.
  intros H. revert i. induction n as [|n IH]; intros i; cbn [pick_chars]; [reflexivity|].
  now rewrite (same_bits_u64 a b i 6 H), IH.
Qed.

Lemma same_bits_string {E} a b i n : same_bits a b -> @pick_string E a i n = pick_string b i n.
Proof. intros H. unfold pick_string. now rewrite (same_bits_chars a b i n H). Qed.

Lemma same_bits_eta {E} a b i now : same_bits a b -> @pick_eta E a i now = pick_eta b i now.
Proof.
  intros H. unfold pick_eta. now rewrite !(same_bits_u64 a b) by exact H.
Qed.

Lemma same_bits_dispatch now t a b st own p :
  same_bits a b -> dispatch_message now t a st own p = dispatch_message now t b st own p.
Proof.
  intros H.
  assert (Hu : forall i n, pick_u64 a i n = pick_u64 b i n) by (intros; now apply same_bits_u64).
  assert (Hi : forall i n, pick_i64 a i n = pick_i64 b i n) by (intros; now apply same_bits_i64).
  assert (Hs : forall E i n, @pick_string E a i n = pick_string b i n)
    by (intros; now apply same_bits_string).
  assert (He : forall E i, @pick_eta E a i now = pick_eta b i now) by (intros; now apply same_bits_eta).
  assert (Hf : forall i, pick_flag a i = pick_flag b i) by (intros; unfold pick_flag; now rewrite Hu).
  assert (Hla : forall i, latitude_at a i = latitude_at b i)
    by (intros; unfold latitude_at, coord; now rewrite Hi).
  assert (Hlo : forall i, longitude_at a i = longitude_at b i)
    by (intros; unfold longitude_at, coord; now rewrite Hi).
  assert (Hco : forall i n s c, coord a i n s c = coord b i n s c)
    by (intros; unfold coord; now rewrite Hi).
  assert (Hso : forall i, sog_at a i = sog_at b i) by (intros; unfold sog_at; now rewrite Hu).
  assert (Hcg : forall i, cog_at a i = cog_at b i) by (intros; unfold cog_at; now rewrite Hu).
  assert (Hhd : forall i, heading_at a i = heading_at b i) by (intros; unfold heading_at; now rewrite Hu).
  assert (Hpf : forall i, position_fix_at a i = position_fix_at b i)
    by (intros; unfold position_fix_at; now rewrite Hu).
  unfold dispatch_message. rewrite (Hu 0%nat 6%nat).
  assert (E1 : handle_t1t2t3 a st own = handle_t1t2t3 b st own).
  { unfold handle_t1t2t3. now rewrite !Hu, !Hi, !Hf, !Hla, !Hlo, !Hso, !Hcg, !Hhd. }
  assert (E4 : handle_t4 a st own = handle_t4 b st own).
  { unfold handle_t4. now rewrite !Hu, !Hf, !Hla, !Hlo, !Hpf. }
  assert (E5 : handle_t5 now a st own = handle_t5 now b st own).
  { unfold handle_t5. now rewrite !Hu, !Hs, !He, !Hpf. }
  assert (E6 : handle_t6 a st own = handle_t6 b st own).
  { unfold handle_t6. now rewrite !Hu, !Hf. }
  assert (E9 : handle_t9 a st own = handle_t9 b st own).
  { unfold handle_t9. now rewrite !Hu, !Hf, !Hla, !Hlo, !Hcg. }
  assert (E10 : handle_t10 a st own = handle_t10 b st own).
  { unfold handle_t10. now rewrite !Hu. }
  assert (E18 : handle_t18 a st own = handle_t18 b st own).
  { unfold handle_t18. now rewrite !Hu, !Hf, !Hla, !Hlo, !Hso, !Hcg, !Hhd. }
  assert (E21 : handle_t21 a st own = handle_t21 b st own).
  { unfold handle_t21. now rewrite !Hs, !Hu, !Hf, !Hla, !Hlo. }
  assert (E24 : handle_t24 a st p own = handle_t24 b st p own).
  { unfold handle_t24, t24_fields. now rewrite !Hs, !Hu. }
  assert (E27 : handle_t27 a st own = handle_t27 b st own).
  { unfold handle_t27. now rewrite !Hu, !Hf, !Hco. }
  cbv zeta. now rewrite E1, E4, E5, E6, E9, E10, E18, E21, E24, E27.
Qed.

(** ** The fields of a VDM sentence *)

Lemma vdm_scan_tail num f split : (6 <= num)%nat -> vdm_scan num f split = Ok f.
Proof.
  revert num. induction split as [|s split IH]; intros num H; cbn [vdm_scan]; [reflexivity|].
  do 6 (destruct num as [|num]; [lia|]). apply IH. lia.
Qed.

(** What the scan finds. *)
Definition scan_of (fields : list str) (c n : N) : vdm_fields :=
  {| vf_count := c; vf_number := n;
     vf_id := match nth_error fields 2 with Some f => parse_uint u64_max f | None => None end;
     vf_channel := nth_error fields 3;
     vf_payload := nth 4 fields [] |}.

Lemma vdm_scan_fields t fields count :
  nth_error fields 0 = Some count ->
  vdm_scan 0 vdm_start (t :: fields) =
  match parse_u8 count with
  | None => Err (InvalidSentence (lit "Failed to parse fragment count: " ++ count))
  | Some c => match nth_error fields 1 with
    | None => Ok (scan_of fields c 0)
    | Some number => match parse_u8 number with
      | None => Err (InvalidSentence (lit "Failed to parse fragment count: " ++ number))
      | Some n => Ok (scan_of fields c n)
      end
    end
  end.
Proof.
  destruct fields as [|f0 [|f1 [|f2 [|f3 [|f4 more]]]]]; [discriminate|..]; cbn [nth_error]; intros [= ->];
    cbn [vdm_scan]; (destruct (parse_u8 count) as [c'|]; [|reflexivity]); cbn [vdm_scan];
    try (destruct (parse_u8 f1) as [n'|]; [|reflexivity]); try reflexivity.
  cbn [vdm_scan]. apply vdm_scan_tail. lia.
Qed.

Lemma vdm_with_call ovf now s p tt fff fields :
  vdm_with s tt fff fields ->
  exists body, split_on 44 body = (lit "!" ++ tt ++ fff) :: fields /\
  parse_sentence ovf now s p =
  handle_vdm ovf now (lit "!" ++ fff) body (Some (station_of_talker tt)) p.
Proof.
  intros ((body & given & Hb & Hc & (Hne & Hp & Hbody)) & Hnil & Ht & Hf). exists body.
  rewrite <- byte_len_spec in Ht.
  split; [rewrite Hbody; apply split_on_join; assumption|].
  rewrite join_cons in Hbody by exact Hnil.
  apply Forall_inv in Hp. apply plain_app_inv in Hp as [_ Hp].
  apply plain_app_inv in Hp as [Hp _].
  exact (parse_vdm ovf now s p body given tt fff _ Hb Hc Hbody Hp Ht Hf).
Qed.

(** Result of decoding a complete payload text. *)
Definition decode_payload (ovf : bool) (now : datetime) (fff payload : str) (st : Station) (p : NmeaParser)
    : outcome ParseError ParsedSentence * NmeaParser :=
  match parse_payload ovf payload with
  | Panic => (Panic, p)
  | Err _ => (Ok PsIncomplete, p)
  | Ok bv => dispatch_message now (lit "!" ++ fff) bv st (str_eqb fff (lit "VDO")) p
  end.

Lemma own_vdo fff : fff = lit "VDM" \/ fff = lit "VDO" ->
  str_eqb (lit "!" ++ fff) (lit "!VDO") = str_eqb fff (lit "VDO").
Proof. intros [-> | ->]; reflexivity. Qed.

Lemma parse_u8_denotes s v : denotes s v -> v <= 255 -> parse_u8 s = Some v.
Proof. intros H1 H2. apply parse_uint_spec. split; assumption. Qed.

(** What a VDM sentence with readable numbers does. *)
Lemma vdm_with_formatter s tt fff fields : vdm_with s tt fff fields -> fff = lit "VDM" \/ fff = lit "VDO".
Proof. intros (_ & _ & _ & H). exact H. Qed.

Lemma vdm_with_step ovf now s p tt fff fields :
  vdm_with s tt fff fields ->
  parse_sentence ovf now s p =
  match vdm_scan 0 vdm_start ((lit "!" ++ tt ++ fff) :: fields) with
  | Panic => (Panic, p)
  | Err e => (Err e, p)
  | Ok f => match vdm_payload (lit "!" ++ fff) f p with
    | (None, p') => (Ok PsIncomplete, p')
    | (Some pl, p') => decode_payload ovf now fff pl (station_of_talker tt) p'
    end
  end.
Proof.
  intros Hs. destruct (vdm_with_call ovf now s p _ _ _ Hs) as (body & Hsplit & ->).
  unfold handle_vdm. rewrite Hsplit, own_vdo by exact (vdm_with_formatter _ _ _ _ Hs).
  destruct (vdm_scan _ _ _) as [f|e|]; try reflexivity.
Qed.

(** What a VDM sentence with readable numbers does. *)
Lemma vdm_sentence_step ovf now s p tt fff count number id channel payload c n :
  vdm_sentence s tt fff count number id channel payload ->
  denotes count c -> c <= 255 -> denotes number n -> n <= 255 ->
  parse_sentence ovf now s p =
  match vdm_payload (lit "!" ++ fff)
          {| vf_count := c; vf_number := n; vf_id := parse_uint u64_max id;
             vf_channel := Some channel; vf_payload := payload |} p with
  | (None, p') => (Ok PsIncomplete, p')
  | (Some pl, p') => decode_payload ovf now fff pl (station_of_talker tt) p'
  end.
Proof.
  intros (more & Hs) Hc Hc' Hn Hn'. rewrite (vdm_with_step _ _ _ _ _ _ _ Hs).
  rewrite (vdm_scan_fields _ _ count) by reflexivity. cbn [nth_error].
  now rewrite (parse_u8_denotes count c), (parse_u8_denotes number n) by assumption.
Qed.

Lemma one_fragment_step ovf now s p tt fff payload :
  one_fragment s tt fff payload ->
  parse_sentence ovf now s p = decode_payload ovf now fff payload (station_of_talker tt) p.
Proof.
  intros (count & number & id & channel & n & Hs & Hc & Hn & Hn').
  rewrite (vdm_sentence_step _ _ _ _ _ _ _ _ _ _ _ 1 n Hs Hc) by (assumption || lia).
  reflexivity.
Qed.

Lemma one_fragment_bits ovf now s p tt fff bits :
  one_fragment s tt fff (armor bits) ->
  parse_sentence ovf now s p =
  dispatch_message now (lit "!" ++ fff) bits (station_of_talker tt) (str_eqb fff (lit "VDO")) p.
Proof.
  intros H. rewrite (one_fragment_step _ _ _ _ _ _ _ H). unfold decode_payload.
  destruct (parse_payload_armor ovf bits) as (k & _ & _ & ->).
  apply same_bits_dispatch, same_bits_zeros.
Qed.

(** The encoder of the specification writes such a sentence. *)
Lemma encode_sentence_one_fragment tt fff channel bits :
  utf8_bytes tt = 2%nat -> plain tt -> fff = lit "VDM" \/ fff = lit "VDO" -> plain channel ->
  one_fragment (encode_sentence tt fff channel bits) tt fff (armor bits).
Proof.
  intros Ht Hp Hf Hch. exists (lit "1"), (lit "1"), [], channel, 1. split.
  - exists [lit "0"]. split; [|now split].
    exists (lit "!" ++ tt ++ fff ++ lit ",1,1,," ++ channel ++ lit "," ++ armor bits ++ lit ",0").
    eexists. split; [right; split; [reflexivity|apply nmea_checksum_no_star]|].
    split; [now right|].
    split; [discriminate|]. split.
    + assert (plain fff) by (destruct Hf as [-> | ->]; now apply plain_lit_dec).
      repeat constructor; try (now apply plain_lit_dec); try assumption; [|apply armor_plain].
      apply plain_app; [now apply plain_lit_dec|]. now apply plain_app.
    + cbn [join]. rewrite <- !app_assoc. reflexivity.
  - split; [exists (lit "1")|split; [exists (lit "1")|lia]];
      (split; [now left|split; [|reflexivity]]); (split; [discriminate|]);
      (constructor; [split; intros X; discriminate X|constructor]).
Qed.

(** Deciding whether a concrete text is such a sentence. *)
Lemma check_vdm s tt fff fields :
  (let '(body, given) := split_checksum s in
   (str_eqb given [] || str_eqb given (nmea_checksum body)) = true /\
   split_on 44 body = (lit "!" ++ tt ++ fff) :: fields) ->
  (match fields with [] => false | _ => true end && Nat.eqb (byte_len tt) 2 &&
   (str_eqb fff (lit "VDM") || str_eqb fff (lit "VDO"))) = true ->
  vdm_with s tt fff fields.
Proof.
  intros H1 H2. apply andb_true_iff in H2 as [H2 Hf]. apply andb_true_iff in H2 as [H2 Ht].
  split; [now apply check_sentence|]. split; [now destruct fields|]. split.
  - rewrite <- byte_len_spec. now apply Nat.eqb_eq.
  - apply orb_true_iff in Hf as [Hf|Hf]; apply str_eqb_eq in Hf; auto.
Qed.

Lemma check_one_fragment s tt fff channel payload more :
  vdm_with s tt fff (lit "1" :: lit "1" :: [] :: channel :: payload :: more) ->
  one_fragment s tt fff payload.
Proof.
  intros H. exists (lit "1"), (lit "1"), [], channel, 1. split; [now exists more|].
  change (lit "1") with (dec 1). pose proof (dec_denotes 1). repeat split; try assumption. lia.
Qed.

Lemma names_station_unique tt a b : names_station tt a -> names_station tt b -> a = b.
Proof.
  assert (Hnd : forall n m, In (tt, n) ais_talkers -> In (tt, m) ais_talkers -> n = m).
  { intros n m Hn Hm. unfold ais_talkers in *. cbn [In] in *.
    repeat match goal with H : _ \/ _ |- _ => destruct H as [H|H] end; try tauto;
      injection Hn as <- <-; apply pair_equal_spec in Hm as [Hl <-]; (reflexivity || discriminate Hl). }
  unfold names_station. intros [Ha|[Ha ->]] [Hb|[Hb ->]]; eauto.
  - exfalso. apply Hb. apply in_map_iff. now exists (tt, a).
  - exfalso. apply Ha. apply in_map_iff. now exists (tt, b).
Qed.
