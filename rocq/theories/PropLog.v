(** C84: what is written to the log. *)
From stdpp Require Import gmap.
From Coq Require Import List NArith ZArith Bool String Lia.
From Verif Require Import Base Str F64 Chrono Types Util AisMod Vdm Gnss Parser Log
  SpecText SpecResult SpecAis SpecTime SpecState SpecFields SpecPanic SpecWait SpecLog
  StrFacts FrontFacts CallFacts ResultFacts BitFacts VdmFacts LayoutFacts StateFacts FieldFacts
  PropFront PropAis PropState PropBits PropStatic PropPanic PropWait.
Import ListNotations.
Open Scope N_scope.
Local Opaque pick_string pick_u64 pick_i64 pick_eta parse_f64 be_value.

(** ** Values *)

Lemma below (f : N -> bool) k : forallb f (map N.of_nat (seq 0 k)) = true -> forall n, n < N.of_nat k -> f n = true.
Proof.
  intros H n Hn. rewrite forallb_forall in H. apply H. rewrite <- (N2Nat.id n). apply in_map, in_seq. lia.
Qed.

Lemma ship_log code : code < 256 -> exists l, ship_warnings code l /\
  ShipType_new_log code ++ CargoType_new_log code = map LogWarn l.
Proof.
  intros H.
  assert (C : CargoType_new_log code =
    if in_dec N.eq_dec (code / 10) [1; 2; 4; 6; 7; 8; 9] then [] else [LogWarn (lit "Unexpected ship and cargo type: " ++ dec code)]).
  { unfold CargoType_new_log.
    match goal with |- (if ?b then _ else _) = _ => replace b with (if in_dec N.eq_dec (code / 10) [1; 2; 4; 6; 7; 8; 9] then true else false) end;
      [destruct (in_dec _ _ _); reflexivity|].
    symmetry. apply eqb_prop. revert code H.
    apply (below (fun code => Bool.eqb _ _) 256). vm_compute. reflexivity. }
  unfold ShipType_new_log. rewrite C. clear C.
  destruct (in_dec N.eq_dec (code / 10) [1; 2; 4; 6; 7; 8; 9]) as [D|D].
  - exists []. split; [now constructor|]. destruct (N.leb_spec code 99) as [L|L]; [reflexivity|]. exfalso.
    assert (10 <= code / 10) by (apply N.div_le_lower_bound; lia). cbn [In] in D. lia.
  - destruct (N.leb_spec code 99) as [L|L]; eexists; (split; [constructor; assumption || lia|]); reflexivity.
Qed.

Lemma fix_log code : exists l, fix_warnings code l /\ PositionFixType_new_log code = map LogWarn l.
Proof.
  unfold PositionFixType_new_log. destruct (N.leb_spec code 8) as [L|L].
  - exists []. split; [now left|reflexivity].
  - eexists [_]. split; [right; split; [lia|reflexivity]|reflexivity].
Qed.

Lemma ship_warnings_unique code l l' : ship_warnings code l -> ship_warnings code l' -> l = l'.
Proof.
  assert (B : has_cargo_digit code -> code < 100).
  { intros D. destruct (N.lt_ge_cases code 100) as [L|L]; [exact L|]. exfalso.
    assert (10 <= code / 10) by (apply N.div_le_lower_bound; lia). unfold has_cargo_digit in D. cbn [In] in D. lia. }
  intros [D|D L|L] [D'|D' L'|L']; try reflexivity; try contradiction; exfalso; try lia; try (apply B in D); try (apply B in D'); lia.
Qed.

Lemma fix_warnings_unique code l l' : fix_warnings code l -> fix_warnings code l' -> l = l'.
Proof. intros [[H ->]|[H ->]] [[H' ->]|[H' ->]]; reflexivity || lia. Qed.

Lemma bits_pick bits i n : (n <= 64)%nat -> pick_u64 bits i n = bits_at bits i n.
Proof. intros H. unfold bits_at. now rewrite pick_u64_spec by lia. Qed.

Lemma bits_small bits i n : bits_at bits i n < 2 ^ N.of_nat n.
Proof. rewrite <- bits_at_value. pose proof (be_value_lt (window bits i n)) as H. now rewrite window_length in H. Qed.

Lemma as_u8_bits bits i n : (n <= 8)%nat -> as_u8 (bits_at bits i n) = bits_at bits i n.
Proof.
  intros H. apply N.mod_small. eapply N.lt_le_trans; [apply bits_small|]. change 256 with (2 ^ 8).
  apply N.pow_le_mono_r; lia.
Qed.

Lemma value_warnings_unique bits l l' : value_warnings bits l -> value_warnings bits l' -> l = l'.
Proof.
  intros H H'.
  destruct H as [T M|l T D C F|l1 l2 T S F|l T F|l T P S]; destruct H' as [T' M'|l' T' D' C' F'|l1' l2' T' S' F'|l' T' F'|l' T' P' S'];
    try (exfalso; cbn [In] in *; lia).
  - reflexivity.
  - exact (fix_warnings_unique _ _ _ F F').
  - f_equal; [exact (ship_warnings_unique _ _ _ S S')|exact (fix_warnings_unique _ _ _ F F')].
  - exact (fix_warnings_unique _ _ _ F F').
  - exact (ship_warnings_unique _ _ _ S S').
Qed.

Lemma position_fix_warnings bits i : exists l, fix_warnings (bits_at bits i 4) l /\ position_fix_log bits i = map LogWarn l.
Proof.
  unfold position_fix_log. cbv zeta. rewrite bits_pick, as_u8_bits by lia.
  destruct (N.eqb_spec (bits_at bits i 4) 0) as [E|_]; [|apply fix_log]. exists []. split; [left; split; [lia|reflexivity]|reflexivity].
Qed.

(** The lines about a message are those of the specification. *)
Lemma message_log bits : exists l, dispatch_message_log bits = map LogWarn l /\
  (value_warnings bits l \/ l = [] /\ forall l', ~ value_warnings bits l').
Proof.
  assert (N : forall n, bits_at bits 0 6 = n -> ~ In n [1; 2; 3; 4; 5; 21; 24] -> forall l', ~ value_warnings bits l').
  { intros n Hn Hi l' H. apply Hi. subst n. destruct H as [T M|l T D C F|l1 l2 T S F|l T F|l T P S]; cbn [In] in *; lia. }
  unfold dispatch_message_log. rewrite bits_pick by lia.
  destruct (in_dec N.eq_dec (bits_at bits 0 6) [1; 2; 3; 4; 5; 21; 24]) as [D|D].
  2:{ exists []. split; [|right; split; [reflexivity|exact (N _ eq_refl D)]].
    revert D. generalize (bits_at bits 0 6). intros n D.
    destruct (N.eq_dec n 1), (N.eq_dec n 2), (N.eq_dec n 3), (N.eq_dec n 4), (N.eq_dec n 5), (N.eq_dec n 21), (N.eq_dec n 24);
      try (exfalso; apply D; cbn [In]; lia).
    clear D N. destruct n as [|n]; [reflexivity|]. repeat (destruct n as [n|n|]; try congruence; try reflexivity). }
  clear N. cbn [In] in D.
  assert (M : In (bits_at bits 0 6) [1; 2; 3] -> exists l, handle_t1t2t3_log bits = map LogWarn l /\
    (value_warnings bits l \/ l = [] /\ forall l', ~ value_warnings bits l')).
  { intros T. unfold handle_t1t2t3_log. rewrite bits_pick by lia. pose proof (bits_small bits 143 2) as B. change (2 ^ N.of_nat 2) with 4 in B.
    destruct (N.eq_dec (bits_at bits 143 2) 3) as [E|E].
    - rewrite E. exists [lit "Unrecognized Maneuver Indicator value: 3"]. split; [reflexivity|]. left. now constructor.
    - exists []. split.
      + assert (bits_at bits 143 2 = 0 \/ bits_at bits 143 2 = 1 \/ bits_at bits 143 2 = 2) as [X|[X|X]] by lia; now rewrite X.
      + right. split; [reflexivity|]. intros l' H. destruct H; cbn [In] in T; lia. }
  destruct D as [D|[D|[D|[D|[D|[D|[D|[]]]]]]]]; symmetry in D; rewrite D.
  1-3: apply M; rewrite D; cbn [In]; lia.
  - unfold handle_t4_log. rewrite !bits_pick by lia.
    assert (U : forall i n, (n <= 14)%nat -> as_u32 (bits_at bits i n) = bits_at bits i n).
    { intros i n H. apply N.mod_small. eapply N.lt_le_trans; [apply bits_small|].
      apply (N.le_trans _ (2 ^ 14)); [apply N.pow_le_mono_r; lia|vm_compute; discriminate]. }
    rewrite !U by lia.
    assert (I : as_i32 (Z.of_N (bits_at bits 38 14)) = Z.of_N (bits_at bits 38 14)).
    { apply (small_i32_N 14); [exact (bits_small bits 38 14)|discriminate]. }
    rewrite I. destruct (position_fix_warnings bits 134) as (l & F & E).
    destruct (@ymd_and_hms_cases ParseError (Z.of_N (bits_at bits 38 14)) (bits_at bits 52 4) (bits_at bits 56 5)
      (bits_at bits 61 5) (bits_at bits 66 6) (bits_at bits 72 6)) as [(R & Y & V & T)|(R & X)]; rewrite R; cbn [after].
    + exists l. split; [exact E|]. left. now constructor.
    + exists []. split; [reflexivity|]. right. split; [reflexivity|]. intros l' H. apply X.
      destruct H; try (cbn [In] in *; lia). split; [|tauto].
      pose proof (bits_small bits 38 14) as B. change (2 ^ N.of_nat 14) with 16384 in B. unfold year_in_range. lia.
  - unfold handle_t5_log. destruct (@pick_string_ok ParseError bits 70 7) as [x ->].
    destruct (@pick_string_ok ParseError bits 112 20) as [y ->]. cbn [after]. rewrite !bits_pick, !as_u8_bits by lia.
    destruct (ship_log (bits_at bits 232 8)) as (l & S & E); [apply (bits_small bits 232 8)|].
    destruct (position_fix_warnings bits 270) as (l' & F & E').
    exists (l ++ l'). split; [rewrite map_app, <- E, <- E'; apply app_assoc|]. left. now constructor.
  - unfold handle_t21_log. destruct (@pick_string_ok ParseError bits 43 20) as [x ->].
    destruct (@pick_string_ok ParseError bits 272 14) as [y ->]. cbn [after]. rewrite !bits_pick, !as_u8_bits by lia.
    destruct (fix_log (bits_at bits 249 4)) as (l & F & E). exists l. split; [exact E|]. left. now apply values_aid.
  - unfold handle_t24_log. rewrite !bits_pick by lia. destruct (N.eqb_spec (bits_at bits 38 2) 1) as [P|P].
    + destruct (@pick_string_ok ParseError bits 90 7) as [x ->]. cbn [after]. rewrite !as_u8_bits by lia.
      destruct (ship_log (bits_at bits 40 8)) as (l & S & E); [apply (bits_small bits 40 8)|]. exists l. split; [exact E|].
      left. now apply values_static.
    + exists []. split; [reflexivity|]. right. split; [reflexivity|]. intros l' H. destruct H; cbn [In] in *; lia.
Qed.

(** ** Calls *)

Definition start_line (s : str) : list LogLine :=
  if existsb (N.eqb 42) s then [] else [LogDebug (lit "No checksum found for sentence: " ++ s)].

Lemma start_line_spec s l : checksum_line s l <-> l = start_line s.
Proof.
  unfold checksum_line, start_line. destruct (existsb (N.eqb 42) s) eqn:E.
  - apply existsb_exists in E as (c & Hc & E). apply N.eqb_eq in E. subst c. tauto.
  - assert (~ In 42 s) by (intros H; assert (existsb (N.eqb 42) s = true) by (apply existsb_exists; exists 42; auto); congruence).
    tauto.
Qed.

Lemma log_ok ovf s p body given : has_body s body given -> checksum_ok body given ->
  parse_sentence_log ovf s p = start_line s ++ parse_body_log ovf body p.
Proof.
  intros Hb Hc. apply has_body_split in Hb. unfold parse_sentence_log. rewrite Hb, hex2_checksum. fold (start_line s).
  destruct Hc as [-> | ->].
  - rewrite (str_eqb_refl []). cbn [negb]. now rewrite andb_false_r.
  - now rewrite str_eqb_refl.
Qed.

Lemma log_bad ovf s p body given : has_body s body given -> ~ checksum_ok body given ->
  parse_sentence_log ovf s p = start_line s.
Proof.
  intros Hb Hc. apply has_body_split in Hb. unfold parse_sentence_log. rewrite Hb, hex2_checksum. fold (start_line s).
  destruct (str_eqb_spec (nmea_checksum body) given) as [E|E]; [exfalso; apply Hc; right; now symmetry|].
  destruct (str_eqb_spec given []) as [E'|E']; [exfalso; apply Hc; now left|]. cbn [negb andb]. apply app_nil_r.
Qed.

Lemma body_log_type ovf body p : parse_body_log ovf body p =
  match before_first 44 body with
  | None => []
  | Some t0 => match parse_type t0 with
    | None => []
    | Some (_, _, t2) => if str_eqb t2 (lit "!VDM") || str_eqb t2 (lit "!VDO") then handle_vdm_log ovf t2 body p else []
    end
  end.
Proof.
  unfold parse_body_log, parse_type. destruct (before_first 44 body) as [t0|]; [|reflexivity].
  destruct (recognize (lit "$") nav_of_talker t0) as [[nav t1]|]; [|reflexivity].
  destruct (recognize (lit "!") station_of_talker t1) as [[st t2]|]; reflexivity.
Qed.

(** The lines of an AIS sentence with these fields. *)
Definition fields_log (ovf : bool) (tt fff : str) (fields : list str) (p : NmeaParser) : list LogLine :=
  match vdm_scan 0 vdm_start ((lit "!" ++ tt ++ fff) :: fields) with
  | Ok f => vdm_payload_log (lit "!" ++ fff) f ++
    match fst (vdm_payload (lit "!" ++ fff) f p) with
    | None => []
    | Some payload => match parse_payload ovf payload with Ok bv => dispatch_message_log bv | _ => [] end
    end
  | _ => []
  end.

Lemma vdm_log ovf s p tt fff fields : vdm_with s tt fff fields ->
  parse_sentence_log ovf s p = start_line s ++ fields_log ovf tt fff fields p.
Proof.
  intros ((body & given & Hb & Hc & Hf) & Hnil & Ht & Hfff). rewrite (log_ok _ _ _ _ _ Hb Hc). f_equal.
  rewrite body_log_type. pose proof Hf as (_ & Hp & Hj). rewrite join_cons in Hj by exact Hnil. apply Forall_inv in Hp.
  rewrite Hj at 1. rewrite before_first_app by exact Hp.
  assert (R : recognized (lit "!" ++ tt ++ fff) None (Some (station_of_talker tt)) (lit "!" ++ fff)).
  { apply RAis; [now rewrite byte_len_spec|destruct Hfff as [-> | ->]; reflexivity]. }
  apply parse_type_recognized in R. rewrite R.
  replace (str_eqb (lit "!" ++ fff) (lit "!VDM") || str_eqb (lit "!" ++ fff) (lit "!VDO")) with true
    by (destruct Hfff as [-> | ->]; reflexivity).
  unfold handle_vdm_log, fields_log. apply has_fields_split in Hf. now rewrite Hf.
Qed.

Lemma other_log ovf s p : parse_sentence_log ovf s p = start_line s \/ exists tt fff fields, vdm_with s tt fff fields.
Proof.
  destruct (has_body_total s) as (body & given & Hb).
  destruct (checksum_ok_dec body given) as [Hc|Hc]; [|left; exact (log_bad _ _ _ _ _ Hb Hc)].
  rewrite (log_ok _ _ _ _ _ Hb Hc), body_log_type.
  destruct (before_first 44 body) as [t|] eqn:Ef; [|left; apply app_nil_r].
  apply before_first_some in Ef as (Hp & rest & Hbody).
  destruct (parse_type t) as [[[nav st] t2]|] eqn:Et; [|left; apply app_nil_r].
  destruct (str_eqb t2 (lit "!VDM") || str_eqb t2 (lit "!VDO")) eqn:Ev; [|left; apply app_nil_r].
  right. apply parse_type_recognized in Et.
  assert (Hf : exists fff, t2 = lit "!" ++ fff /\ (fff = lit "VDM" \/ fff = lit "VDO")).
  { apply orb_true_iff in Ev as [Ev|Ev]; apply str_eqb_eq in Ev; subst t2; [exists (lit "VDM")|exists (lit "VDO")]; auto. }
  destruct Hf as (fff & -> & Hf).
  assert (Hl : byte_len fff = 3%nat) by (destruct Hf as [-> | ->]; reflexivity).
  pose proof (recognized_ais _ _ _ _ Et Hl) as (tt & Htt & -> & -> & ->).
  exists tt, fff, (split_on 44 rest). split; [|split; [apply split_on_nonempty|split; [now rewrite <- byte_len_spec|exact Hf]]].
  exists body, given. split; [exact Hb|]. split; [exact Hc|]. apply has_fields_split. rewrite Hbody.
  now rewrite (split_on_app 44 _ _ Hp).
Qed.

Lemma numbered_scan s tt fff fields c n : numbered s tt fff fields c n ->
  vdm_scan 0 vdm_start ((lit "!" ++ tt ++ fff) :: fields) = Ok (scan_of fields c n).
Proof.
  intros ((_ & Hne & _) & Hc & Hl & H). destruct fields as [|count more]; [congruence|]. cbn [nth] in Hc.
  rewrite (vdm_scan_fields _ (count :: more) count eq_refl), (parse_u8_denotes _ _ Hc Hl).
  destruct H as [(H1 & ->)|(H1 & H2 & H3)]; destruct more as [|number more]; cbn [List.length nth nth_error] in *; try lia.
  - reflexivity.
  - now rewrite (parse_u8_denotes _ _ H2 H3).
Qed.

Lemma scan_numbered s tt fff fields f : vdm_with s tt fff fields ->
  vdm_scan 0 vdm_start ((lit "!" ++ tt ++ fff) :: fields) = Ok f ->
  exists c n, numbered s tt fff fields c n /\ f = scan_of fields c n.
Proof.
  intros Hs. pose proof Hs as (_ & Hne & _). destruct fields as [|count more]; [congruence|].
  rewrite (vdm_scan_fields _ (count :: more) count eq_refl).
  destruct (parse_u8 count) as [c|] eqn:Ec; [|discriminate]. apply parse_u8_some in Ec as [Ec Ec'].
  destruct more as [|number more]; cbn [nth_error].
  - intros [= <-]. exists c, 0. split; [|reflexivity]. split; [exact Hs|]. split; [exact Ec|]. split; [exact Ec'|]. left. split; reflexivity.
  - destruct (parse_u8 number) as [n|] eqn:En; [|discriminate]. apply parse_u8_some in En as [En En']. intros [= <-].
    exists c, n. split; [|reflexivity]. split; [exact Hs|]. split; [exact Ec|]. split; [exact Ec'|]. right.
    cbn [List.length nth]. split; [lia|auto].
Qed.

Lemma scan_id fields c n : vf_id (scan_of fields c n) = parse_uint u64_max (nth 2 fields []).
Proof.
  unfold scan_of. cbn [vf_id]. destruct (nth_error fields 2) as [f|] eqn:E.
  - f_equal. symmetry. apply nth_error_nth. exact E.
  - apply nth_error_None in E. rewrite (nth_overflow fields) by exact E. reflexivity.
Qed.

Lemma payload_log ovf payload l : readable ovf payload -> value_warnings (payload_bits payload) l ->
  match parse_payload ovf payload with Ok bv => dispatch_message_log bv | _ => [] end = map LogWarn l.
Proof.
  intros Hr Hv. rewrite (proj2 (parse_payload_readable ovf payload _) (conj Hr eq_refl)).
  destruct (message_log (payload_bits payload)) as (l' & -> & [H|[_ H]]); [|destruct (H _ Hv)].
  now rewrite (value_warnings_unique _ _ _ H Hv).
Qed.

Lemma completes_log ovf s tt fff p payload : completes s tt fff p payload ->
  parse_sentence_log ovf s p =
  start_line s ++ match parse_payload ovf payload with Ok bv => dispatch_message_log bv | _ => [] end.
Proof.
  intros [pl (count & number & id & channel & n & (more & Hs) & Hc & Hn & Hl)|mid channel a b Hs Hw|mid channel a b Hs Hw].
  - rewrite (vdm_log _ _ _ _ _ _ Hs). f_equal. unfold fields_log.
    rewrite (numbered_scan s tt fff _ 1 n).
    + unfold vdm_payload_log, vdm_payload. reflexivity.
    + split; [exact Hs|]. split; [exact Hc|]. split; [lia|]. right. cbn [List.length nth]. split; [lia|auto].
  - destruct Hs as (fields & count & number & id & Hs & H0 & Hc & H1 & Hn & _ & H2 & Hi & Hi' & -> & ->).
    rewrite (vdm_log _ _ _ _ _ _ Hs). f_equal. unfold fields_log.
    rewrite (vdm_scan_fields _ _ _ H0), H1, (parse_u8_denotes count 2), (parse_u8_denotes number 2) by (assumption || lia).
    unfold vdm_payload_log, vdm_payload. cbn [scan_of vf_count vf_number vf_id vf_channel vf_payload]. rewrite H2.
    rewrite (proj2 (parse_uint_spec u64_max id mid)) by (split; [exact Hi|unfold u64_max; lia]).
    change (2 =? 1) with false. change (2 =? 2) with true. cbv iota zeta.
    rewrite nth_error_unwrap, !fragment_key_model. unfold pull_string. apply stored_kept in Hw. unfold kept in Hw.
    rewrite Hw. reflexivity.
  - destruct Hs as (fields & count & number & id & Hs & H0 & Hc & H1 & Hn & _ & H2 & Hi & Hi' & -> & ->).
    rewrite (vdm_log _ _ _ _ _ _ Hs). f_equal. unfold fields_log.
    rewrite (vdm_scan_fields _ _ _ H0), H1, (parse_u8_denotes count 2), (parse_u8_denotes number 1) by (assumption || lia).
    unfold vdm_payload_log, vdm_payload. cbn [scan_of vf_count vf_number vf_id vf_channel vf_payload]. rewrite H2.
    rewrite (proj2 (parse_uint_spec u64_max id mid)) by (split; [exact Hi|unfold u64_max; lia]).
    change (2 =? 1) with false. change (2 =? 2) with true. change (1 =? 1) with true. cbv iota zeta.
    rewrite nth_error_unwrap, !fragment_key_model. unfold pull_string. apply stored_kept in Hw. unfold kept in Hw.
    rewrite Hw. reflexivity.
Qed.

(** The lines of a call are the one about the checksum and the warnings of the specification. *)
Theorem c84_warnings ovf s p start l :
  checksum_line s start -> warnings ovf s p l -> parse_sentence_log ovf s p = start ++ map LogWarn l.
Proof.
  intros Hs H. apply start_line_spec in Hs. subst start.
  destruct H as [tt fff fields c n H N1 N2|tt fff fields n H I|tt fff fields n v H I I' N1 N2|tt fff payload l C R V].
  1-3: rewrite (vdm_log _ _ _ _ _ _ (proj1 H)); f_equal; unfold fields_log; rewrite (numbered_scan _ _ _ _ _ _ H);
    unfold vdm_payload_log, vdm_payload; rewrite ?scan_id; cbn [scan_of vf_count vf_number].
  - apply N.eqb_neq in N1, N2. rewrite N1, N2. reflexivity.
  - change (2 =? 1) with false. change (2 =? 2) with true. cbv iota.
    destruct (parse_uint u64_max (nth 2 fields [])) as [v|] eqn:E; [|cbn [fst map app]; now rewrite <- !app_assoc].
    exfalso. apply parse_uint_spec in E as [E E']. apply I in E. unfold u64_max in E'. lia.
  - change (2 =? 1) with false. change (2 =? 2) with true. cbv iota.
    rewrite (proj2 (parse_uint_spec u64_max _ v)) by (split; [exact I|unfold u64_max; lia]).
    apply N.eqb_neq in N1, N2. rewrite N1, N2. reflexivity.
  - rewrite (completes_log _ _ _ _ _ _ C). f_equal. now apply payload_log.
Qed.
Print Assumptions c84_warnings.

Theorem c84_nothing_else ovf s p start :
  checksum_line s start -> (forall l, ~ warnings ovf s p l) -> parse_sentence_log ovf s p = start.
Proof.
  intros Hs H. apply start_line_spec in Hs. subst start.
  destruct (other_log ovf s p) as [E|(tt & fff & fields & Hv)]; [exact E|].
  assert (K : forall payload, completes s tt fff p payload ->
    match parse_payload ovf payload with Ok bv => dispatch_message_log bv | _ => [] end = []).
  { intros payload C. destruct (parse_payload ovf payload) as [bits|e|] eqn:E; try reflexivity.
    apply parse_payload_readable in E as [R ->].
    destruct (message_log (payload_bits payload)) as (l & E & [V|[-> _]]); [|exact E].
    destruct (H l). eapply warn_values; eassumption. }
  rewrite (vdm_log _ _ _ _ _ _ Hv). rewrite <- (app_nil_r (start_line s)) at 2. f_equal. unfold fields_log.
  destruct (vdm_scan 0 vdm_start _) as [f|e|] eqn:E; try reflexivity.
  destruct (scan_numbered _ _ _ _ _ Hv E) as (c & n & Hn & ->). clear E.
  destruct (N.eq_dec c 1) as [->|C1].
  - unfold vdm_payload_log, vdm_payload. cbn [scan_of vf_count vf_payload fst app]. change (1 =? 1) with true. cbv iota. cbn [fst app].
    destruct (le_lt_dec 5 (List.length fields)) as [L|L].
    + apply K. apply complete_one. destruct Hn as (_ & D & _ & N).
      destruct fields as [|count [|number [|id [|channel [|payload more]]]]]; cbn [List.length] in L; try lia.
      exists count, number, id, channel, n. split; [now exists more|]. split; [exact D|]. cbn [List.length nth] in N.
      destruct N as [(X & _)|(_ & X)]; [lia|exact X].
    + rewrite (nth_overflow fields []) by lia. reflexivity.
  - destruct (N.eq_dec c 2) as [->|C2].
    2:{ exfalso. eapply H. eapply warn_count; eassumption. }
    unfold vdm_payload_log. destruct (vdm_payload (lit "!" ++ fff) (scan_of fields 2 n) p) as [o q] eqn:Ep. revert Ep.
    unfold vdm_payload. rewrite scan_id. cbn [scan_of vf_count vf_number vf_channel vf_payload].
    change (2 =? 1) with false. change (2 =? 2) with true. cbv iota.
    destruct (parse_uint u64_max (nth 2 fields [])) as [v|] eqn:Ev.
    2:{ exfalso. eapply H. eapply warn_id; [exact Hn|]. intros v D. destruct (N.le_gt_cases (2 ^ 64) v) as [L|L]; [exact L|].
      exfalso. rewrite (proj2 (parse_uint_spec u64_max _ v)) in Ev by (split; [exact D|unfold u64_max; lia]). discriminate. }
    apply parse_uint_spec in Ev as [Ev Ev']. assert (V : v < 2 ^ 64) by (unfold u64_max in Ev'; lia). clear Ev'.
    assert (Fr : n = 1 \/ n = 2 -> fragment s tt fff v (nth 3 fields []) n (nth 4 fields [])).
    { intros N. destruct Hn as (_ & D & _ & X).
      assert (L : (2 <= List.length fields)%nat /\ denotes (nth 1 fields []) n) by (destruct X as [(_ & ->)|(X & Y & _)]; [lia|auto]).
      destruct L as [L Dn]. assert (L3 : (3 <= List.length fields)%nat).
      { destruct (le_lt_dec 3 (List.length fields)) as [Y|Y]; [exact Y|]. rewrite nth_overflow in Ev by lia.
        destruct Ev as (ds & [<-|X'] & (Y' & _) & _); congruence. }
      destruct fields as [|count [|number [|id more]]]; cbn [List.length] in L3; try lia.
      exists (count :: number :: id :: more), count, number, id. cbn [nth_error nth] in *. auto 12. }
    rewrite nth_error_unwrap, !fragment_key_model. cbv zeta. unfold pull_string.
    destruct (N.eqb_spec n 1) as [->|N1]; [|destruct (N.eqb_spec n 2) as [->|N2]].
    + destruct (saved_fragments p !! fragment_key fff v (nth 3 fields []) 2) as [b|] eqn:Es; intros [= <- <-]; cbn [fst app];
        [|reflexivity].
      apply K. eapply complete_first; [apply Fr; now left|]. apply stored_kept. exact Es.
    + destruct (saved_fragments p !! fragment_key fff v (nth 3 fields []) 1) as [b|] eqn:Es; intros [= <- <-]; cbn [fst app];
        [|reflexivity].
      apply K. eapply complete_second; [apply Fr; now right|]. apply stored_kept. exact Es.
    + exfalso. eapply H. eapply warn_number; eassumption.
Qed.
Print Assumptions c84_nothing_else.

(** Every AIS sentence that is accepted but cannot be used for any message is announced. *)
Theorem c84_unusable_announced ovf s p start tt fff fields :
  checksum_line s start -> vdm_with s tt fff fields -> Forall small_number (firstn 2 fields) ->
  ~ denotes (nth 0 fields []) 1 -> (forall mid channel n payload, ~ fragment s tt fff mid channel n payload) ->
  exists text, parse_sentence_log ovf s p = start ++ [LogWarn text].
Proof.
  intros Hl Hs Hn H1 Hf.
  assert (N : exists c n, numbered s tt fff fields c n).
  { pose proof Hs as (_ & Hne & _). destruct fields as [|count [|number more]]; [congruence|..]; cbn [firstn] in Hn.
    - destruct (Forall_inv Hn) as (c & D & L). exists c, 0. split; [exact Hs|]. split; [exact D|]. split; [exact L|]. now left.
    - destruct (Forall_inv Hn) as (c & D & L). destruct (Forall_inv (Forall_inv_tail Hn)) as (n & D' & L').
      exists c, n. split; [exact Hs|]. split; [exact D|]. split; [exact L|]. right. cbn [List.length nth]. split; [lia|auto]. }
  destruct N as (c & n & N). pose proof N as (_ & D & _ & X).
  destruct (N.eq_dec c 1) as [->|C1]; [contradiction|]. destruct (N.eq_dec c 2) as [->|C2].
  2:{ eexists. exact (c84_warnings ovf s p start _ Hl (warn_count _ _ _ _ _ _ _ _ N C1 C2)). }
  destruct (parse_uint u64_max (nth 2 fields [])) as [v|] eqn:Ev.
  - apply parse_uint_spec in Ev as [Ev Ev']. assert (V : v < 2 ^ 64) by (unfold u64_max in Ev'; lia).
    assert (D12 : (n = 1 \/ n = 2) \/ n <> 1 /\ n <> 2) by lia. destruct D12 as [N12|[N1 N2]].
    2:{ eexists. exact (c84_warnings ovf s p start _ Hl (warn_number _ _ _ _ _ _ _ _ N Ev V N1 N2)). }
    exfalso. apply (Hf v (nth 3 fields []) n (nth 4 fields [])). destruct X as [(_ & X)|(L & Dn & _)]; [lia|].
      assert (L3 : (3 <= List.length fields)%nat)
        by (destruct (le_lt_dec 3 (List.length fields)) as [Y|Y]; [exact Y|]; rewrite nth_overflow in Ev by lia;
            destruct Ev as (ds & [<-|X'] & (Y' & _) & _); congruence).
    destruct fields as [|count [|number [|id more]]]; cbn [List.length] in L3; try lia.
    exists (count :: number :: id :: more), count, number, id. cbn [nth_error nth] in *. auto 12.
  - eexists. refine (c84_warnings ovf s p start _ Hl (warn_id _ _ _ _ _ _ _ N _)). intros v Dv.
    destruct (N.le_gt_cases (2 ^ 64) v) as [L|L]; [exact L|]. exfalso.
    rewrite (proj2 (parse_uint_spec u64_max _ v)) in Ev by (split; [exact Dv|unfold u64_max; lia]). discriminate.
Qed.
Print Assumptions c84_unusable_announced.

(** A warning ought to mean that something is wrong with the message. It does not: every ship of a type
    without cargo digit (fishing, sailing, pilot, tug, not available, ...) causes one. *)
Theorem c84_false_alarm_refuted ovf s p tt fff payload code :
  completes s tt fff p payload -> readable ovf payload ->
  bits_at (payload_bits payload) 0 6 = 5 /\ code = bits_at (payload_bits payload) 232 8 \/
  bits_at (payload_bits payload) 0 6 = 24 /\ bits_at (payload_bits payload) 38 2 = 1 /\
    code = bits_at (payload_bits payload) 40 8 ->
  code < 10 \/ 30 <= code < 40 \/ 50 <= code < 60 ->
  In (LogWarn (lit "Unexpected ship and cargo type: " ++ dec code)) (parse_sentence_log ovf s p).
Proof.
  intros C R T Hc.
  assert (W : ship_warnings code [lit "Unexpected ship and cargo type: " ++ dec code]).
  { apply ship_no_cargo; [|lia]. unfold has_cargo_digit. pose proof (N.div_mod code 10 ltac:(lia)) as D.
    pose proof (N.mod_lt code 10 ltac:(lia)). cbn [In]. lia. }
  assert (L : exists l, value_warnings (payload_bits payload) ((lit "Unexpected ship and cargo type: " ++ dec code) :: l)).
  { destruct T as [(T & ->)|(T & P & ->)].
    - destruct (position_fix_warnings (payload_bits payload) 270) as (l & F & _). exists l.
      exact (values_voyage _ _ _ T W F).
    - exists []. now apply values_static. }
  destruct L as (l & L). rewrite (c84_warnings ovf s p _ _ (proj2 (start_line_spec s _) eq_refl) (warn_values _ _ _ _ _ _ _ C R L)).
  apply in_or_app. right. now left.
Qed.
Print Assumptions c84_false_alarm_refuted.

(** And a loss ought to be announced. It is not: a first half that arrives again replaces the one that
    was waiting (of another transmission, perhaps) without a word. *)
Theorem c84_silent_loss_refuted ovf now s p tt fff mid channel n payload lost start :
  fragment s tt fff mid channel n payload -> waiting p fff mid channel n lost ->
  stored p (Text (fragment_key fff mid channel (3 - n))) = None -> checksum_line s start ->
  parse_sentence_log ovf s p = start /\ waiting (snd (parse_sentence ovf now s p)) fff mid channel n payload.
Proof.
  intros Fr W O Hl.
  assert (N12 : n = 1 \/ n = 2) by (destruct Fr as (f & c & m & i & _ & _ & _ & _ & _ & N & _); exact N).
  split.
  - pose proof Fr as (fields & count & number & id & Hs & H0 & Hc & H1 & Hn & _ & H2 & Hi & Hi' & -> & ->).
    rewrite (vdm_log _ _ _ _ _ _ Hs). apply start_line_spec in Hl. subst start. rewrite <- (app_nil_r (start_line s)) at 2. f_equal.
    unfold fields_log.
    rewrite (vdm_scan_fields _ _ _ H0), H1, (parse_u8_denotes count 2), (parse_u8_denotes number n) by (assumption || lia).
    unfold vdm_payload_log, vdm_payload. cbn [scan_of vf_count vf_number vf_id vf_channel vf_payload]. rewrite H2.
    rewrite (proj2 (parse_uint_spec u64_max id mid)) by (split; [exact Hi|unfold u64_max; lia]).
    change (2 =? 1) with false. change (2 =? 2) with true. cbv iota zeta.
    rewrite nth_error_unwrap, !fragment_key_model. unfold pull_string.
    assert (K : forall k, stored p (Text k) = None -> saved_fragments p !! k = None).
    { intros k Hk. destruct (saved_fragments p !! k) eqn:E; [|reflexivity].
      exfalso. unfold stored in Hk. rewrite E in Hk. discriminate Hk. }
    apply K in O. destruct N12 as [-> | ->]; [change (3 - 1) with 2 in O|change (3 - 2) with 1 in O]; rewrite O;
      [change (1 =? 1) with true|change (2 =? 1) with false; change (2 =? 2) with true]; reflexivity.
  - rewrite (fragment_vdm_step ovf now s p _ _ _ _ _ _ Fr).
    assert (K : forall k, stored p (Text k) = None -> kept p k = None).
    { intros k Hk. unfold kept. destruct (saved_fragments p !! k) eqn:E; [|reflexivity].
      exfalso. unfold stored in Hk. rewrite E in Hk. discriminate Hk. }
    apply K in O. destruct N12 as [-> | ->]; [change (3 - 1) with 2 in O|change (3 - 2) with 1 in O];
      [change (1 =? 1) with true|change (2 =? 1) with false]; cbv iota; unfold first_step, second_step; rewrite O; cbn [snd];
      apply stored_kept; unfold kept, push_string; cbn [saved_fragments]; apply lookup_insert.
Qed.
Print Assumptions c84_silent_loss_refuted.

(** A fishing vessel (type 30), a vessel of unknown type 120 with an unknown positioning device, a
    sentence of three parts, a report without surprises. *)
Example c84_example :
  let voyage ship device := armor (be_bits 6 5 ++ List.repeat false 226 ++ be_bits 8 ship ++ List.repeat false 30 ++
    be_bits 4 device ++ be_bits 4 1 ++ be_bits 5 1 ++ List.repeat false 140) in
  let message payload := lit "!AIVDM,1,1,,A," ++ payload ++ lit ",0*" in
  parse_sentence_log true (message (voyage 30 1)) new_parser = [LogWarn (lit "Unexpected ship and cargo type: 30")] /\
  parse_sentence_log true (message (voyage 120 9)) new_parser =
    [LogWarn (lit "Unexpected ship and cargo type: 120"); LogWarn (lit "Unexpected ship and cargo type: 120");
     LogWarn (lit "Unrecognized position fix type: 9")] /\
  parse_sentence_log true (message (voyage 70 1)) new_parser = [] /\
  parse_sentence_log true (lit "!AIVDM,3,1,5,A,15RTgt0P,0") new_parser =
    [LogDebug (lit "No checksum found for sentence: !AIVDM,3,1,5,A,15RTgt0P,0");
     LogWarn (lit "NMEA sentence fragment count greater (3) than supported 2")] /\
  parse_sentence_log true (lit "!AIVDO,2,1,,A,15RTgt0P,0*") new_parser =
    [LogWarn (lit "NMEA message_id missing from !VDO than supported 2")] /\
  parse_sentence_log true (lit "!AIVDM,2,3,5,A,15RTgt0P,0*") new_parser =
    [LogWarn (lit "Unexpected NMEA fragment number: 3/2")] /\
  parse_sentence_log true (lit "!AIVDM,1,1,,A,15RTgt0PAso;90TKcjM8h6g208CQ,0*4A") new_parser = [].
Proof. vm_compute. repeat split. Qed.
