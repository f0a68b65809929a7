(** C92: exact work of calls that keep nothing. *)
From stdpp Require Import gmap.
From Coq Require Import List NArith ZArith Bool String Lia.
From Verif Require Import Base Str F64 Chrono Types Util AisMod Vdm Gnss Parser Cost SpecText SpecResult SpecAis SpecFields SpecState SpecGnss SpecCost
  StrFacts FrontFacts ResultFacts CallFacts VdmFacts StateFacts PropFront PropState PropGsv PropCost PropFields PropLocal Cases1.
Import ListNotations.
Open Scope N_scope.

Lemma checksum_rounds body : checksum_steps body = N.of_nat (List.length body) - 1.
Proof. unfold checksum_steps. rewrite skipn_length. lia. Qed.

(** A damaged sentence costs one round for each character that enters the checksum, and nothing else. *)
Theorem c92_damaged ovf s p body given : has_body s body given -> ~ checksum_ok body given ->
  parse_steps ovf s p = N.of_nat (List.length body) - 1.
Proof. intros Hb Hc. rewrite (steps_bad _ _ _ _ _ Hb Hc). apply checksum_rounds. Qed.
Print Assumptions c92_damaged.

(** No sentence costs less. *)
Theorem c92_at_least ovf s p body given : has_body s body given ->
  N.of_nat (List.length body) - 1 <= parse_steps ovf s p.
Proof.
  intros Hb. apply has_body_split in Hb. unfold parse_steps. rewrite Hb, checksum_rounds.
  lia.
Qed.
Print Assumptions c92_at_least.

(** A sentence of the five kinds without memory costs in addition one round for each of its fields. *)
Theorem c92_fields ovf s p tt fff fields body given : gnss_with s tt fff fields -> has_body s body given ->
  In fff [lit "GGA"; lit "RMC"; lit "GSA"; lit "VTG"; lit "GLL"] ->
  parse_steps ovf s p = (N.of_nat (List.length body) - 1) + (1 + N.of_nat (List.length fields)).
Proof.
  intros ((body' & given' & Hb' & Hk & Hf) & Hne & Ht) Hb Hi.
  assert (body' = body) as ->.
  { apply has_body_split in Hb, Hb'. congruence. }
  rewrite (steps_ok _ _ _ _ _ Hb' Hk), checksum_rounds. f_equal.
  pose proof Hf as (_ & Hp & Hj). rewrite join_cons in Hj by exact Hne.
  apply has_fields_split in Hf.
  rewrite <- byte_len_spec in Ht.
  assert (Hl : List.length fff = 3%nat /\ byte_len fff = 3%nat).
  { repeat (destruct Hi as [<-|Hi]; [split; reflexivity|]). destruct Hi. }
  rewrite (body_steps_recognized ovf body p (lit "$" ++ tt ++ fff) _ (Some (nav_of_talker tt)) None (lit "$" ++ fff) Hj);
    [|now inversion Hp|apply RGnss; [exact Ht|apply Hl]].
  assert (E : dispatch_steps ovf (lit "$" ++ fff) body p = split_steps body).
  { repeat (destruct Hi as [<-|Hi]; [reflexivity|]). destruct Hi. }
  rewrite E. unfold split_steps. rewrite <- Hf. cbn [List.length]. lia.
Qed.
Print Assumptions c92_fields.

Lemma payload_rounds ovf payload : readable ovf payload -> payload_steps ovf payload = 7 * N.of_nat (List.length payload).
Proof.
  intros H. induction payload as [|c t IH]; [reflexivity|]. cbn [payload_steps List.length].
  assert (R : exists x, payload_char ovf c = Some x).
  { unfold payload_char. destruct ovf; [|].
    - specialize (H eq_refl). inversion H as [|? ? Hc _]; subst. unfold as_u8.
      destruct (N.ltb_spec (c mod 256) 48); [lia|]. cbn. eauto.
    - destruct (_ <? 48); cbn; eauto. }
  destruct R as [x ->]. rewrite IH; [lia|]. intros E. specialize (H E). now inversion H.
Qed.

Lemma scan_rounds num split : (3 <= num)%nat -> scan_steps num split = N.of_nat (List.length split).
Proof.
  revert num. induction split as [|s split IH]; intros num H; [reflexivity|]. cbn [scan_steps List.length].
  destruct num as [|[|[|num]]]; try lia. rewrite IH by lia. lia.
Qed.

(** A sentence with a whole AIS message costs in addition one round for each of its fields, and seven for
    each character of the payload, which stands for six bits. *)
Theorem c92_message ovf s p tt fff count number id channel payload more n body given :
  vdm_with s tt fff (count :: number :: id :: channel :: payload :: more) -> denotes count 1 -> denotes number n -> n <= 255 ->
  has_body s body given -> readable ovf payload ->
  parse_steps ovf s p =
  (N.of_nat (List.length body) - 1) + (6 + N.of_nat (List.length more)) + 7 * N.of_nat (List.length payload).
Proof.
  intros ((body' & given' & Hb' & Hk & Hf) & Hne & Ht & Hfff) Hc Hn Hn' Hb Hr.
  assert (body' = body) as ->.
  { apply has_body_split in Hb, Hb'. congruence. }
  rewrite (steps_ok _ _ _ _ _ Hb' Hk), checksum_rounds.
  pose proof Hf as (_ & Hp & Hj). rewrite join_cons in Hj by exact Hne.
  apply has_fields_split in Hf. rewrite <- byte_len_spec in Ht.
  rewrite (body_steps_recognized ovf body p (lit "!" ++ tt ++ fff) _ None (Some (station_of_talker tt)) (lit "!" ++ fff) Hj);
    [|now inversion Hp|apply RAis; [exact Ht|destruct Hfff as [-> | ->]; reflexivity]].
  assert (E : dispatch_steps ovf (lit "!" ++ fff) body p = vdm_steps ovf (lit "!" ++ fff) body p)
    by (destruct Hfff as [-> | ->]; reflexivity).
  rewrite E. unfold vdm_steps. rewrite <- Hf.
  assert (C1 : parse_u8 count = Some 1) by (apply parse_u8_denotes; [exact Hc|lia]).
  assert (C2 : parse_u8 number = Some n) by (apply parse_u8_denotes; [exact Hn|lia]).
  rewrite (vdm_scan_fields _ (count :: number :: id :: channel :: payload :: more) count eq_refl). cbn [nth_error]. rewrite C1, C2.
  cbn [scan_steps]. rewrite C1, C2, !scan_rounds by lia.
  unfold vdm_payload, scan_of. cbn [vf_count vf_payload nth_error nth fst N.eqb Pos.eqb List.length].
  rewrite (payload_rounds _ _ Hr). lia.
Qed.
Print Assumptions c92_message.

(** A GSA sentence, the same with a wrong checksum, and an AIS message of 28 characters, with their rounds. *)
Example c92_exact_example ovf p :
  parse_steps ovf (lit "$GPGSA,A,3,19,28,14,18,27,22,31,39,,,,,1.7,1.0,1.3*34") p = 49 + 18 /\
  parse_steps ovf (lit "$GPGSA,A,3,19,28,14,18,27,22,31,39,,,,,1.7,1.0,1.3*36") p = 49 /\
  parse_steps ovf (lit "!AIVDM,1,1,,A,15RTgt0PAso;90TKcjM8h6g208CQ,0*4A") p = 43 + 7 + 7 * 28.
Proof.
  split; [|split].
  - refine (c92_fields ovf _ p (lit "GP") (lit "GSA") (map lit ["A"; "3"; "19"; "28"; "14"; "18"; "27"; "22"; "31"; "39"; ""; ""; ""; ""; "1.7"; "1.0"; "1.3"]%string)
      (lit "$GPGSA,A,3,19,28,14,18,27,22,31,39,,,,,1.7,1.0,1.3") (lit "34") _ _ _).
    + gnss.
    + right. split; [reflexivity|]. intros H. cbn in H. repeat destruct H as [H|H]; try discriminate H. exact H.
    + right; right; left. reflexivity.
  - refine (c92_damaged ovf _ p (lit "$GPGSA,A,3,19,28,14,18,27,22,31,39,,,,,1.7,1.0,1.3") (lit "36") _ _).
    + right. split; [reflexivity|]. intros H. cbn in H. repeat destruct H as [H|H]; try discriminate H. exact H.
    + intros [H|H]; discriminate H.
  - refine (c92_message ovf _ p (lit "AI") (lit "VDM") (lit "1") (lit "1") [] (lit "A") (lit "15RTgt0PAso;90TKcjM8h6g208CQ") [lit "0"] 1
      (lit "!AIVDM,1,1,,A,15RTgt0PAso;90TKcjM8h6g208CQ,0") (lit "4A") _ _ _ _ _ _).
    + apply check_vdm; [vm_compute; auto|reflexivity].
    + exact (dec_denotes 1).
    + exact (dec_denotes 1).
    + discriminate.
    + right. split; [reflexivity|]. intros H. cbn in H. repeat destruct H as [H|H]; try discriminate H. exact H.
    + intros _. repeat constructor; discriminate.
Qed.
