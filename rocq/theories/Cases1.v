(** Further examples for C04-C62: for each theorem named, an input that meets all its hypotheses at once, and mostly what the
    theorem says of it (its conclusion, obtained by applying the theorem to this input). *)
From stdpp Require Import gmap.
From Coq Require Import List NArith ZArith Bool String Lia Reals Lra Floats.SpecFloat.
From Verif Require Import Base Str F64 Chrono Types Util AisMod Vdm Gnss Parser
  SpecText SpecResult SpecAis SpecTime SpecState SpecGnss SpecMerge SpecCountry SpecReal SpecMeasure SpecFields
  StrFacts FrontFacts CallFacts ResultFacts BitFacts VdmFacts LayoutFacts StateFacts RunFacts FloatFacts DecimalFacts FieldFacts
  PropFront PropBits PropAis PropState PropStatic PropGsv PropMeasure PropFields PropTables.
Import ListNotations.
Open Scope N_scope.
Local Opaque f64_div f64_mul f64_of_Z f64_of_dec.

Ltac message := apply (check_one_fragment _ _ _ (lit "A") _ [lit "0"]); apply check_vdm; [vm_compute; auto|reflexivity].
Ltac encoded := apply (encode_sentence_one_fragment _ _ (lit "A")); [reflexivity|now apply plain_lit_dec|now left|now apply plain_lit_dec].
Ltac fine_clock := vm_compute; repeat split; intuition discriminate.
Ltac not_in := intros X; cbn in X; repeat (destruct X as [X|X]; [discriminate X|]); exact X.

(** ** C61, C05, C06, C07 *)

Example c61_damaged_checksum_detected_case ovf now p :
  parse_sentence ovf now (ex_gsa ++ lit "*" ++ lit "93") p = (Err (CorruptedSentence (lit "39") (lit "93")), p).
Proof. apply (c61_damaged_checksum_detected ovf now p ex_gsa (lit "93")); [not_in|discriminate|discriminate]. Qed.

Example c05_gnss_sentence_routed_case :
  let s := lit "$GLVTG,1.5,T,,M,5.5,N,10.1,K,A" in
  has_body s s [] /\ checksum_ok s [] /\
  s = lit "$" ++ lit "GL" ++ lit "VTG" ++ lit "," ++ lit "1.5,T,,M,5.5,N,10.1,K,A" /\ utf8_bytes (lit "GL") = 2%nat /\
  ~ In 44 (lit "GL") /\ In (lit "VTG") gnss_formatters /\
  exists r, fst (parse_sentence true ex_now s new_parser) = Ok r.
Proof.
  cbv zeta. split; [left; split; [not_in|]; split; reflexivity|]. split; [now left|]. split; [reflexivity|]. split; [reflexivity|].
  split; [not_in|]. split; [cbn; tauto|]. eexists. vm_compute. reflexivity.
Qed.

Example c07_unsupported_formatter_case ovf now p :
  parse_sentence ovf now (lit "$GPZDA,160012.71,11,03,2004,-1,00") p = (Err (unsupported_error (lit "$ZDA")), p) /\
  parse_sentence ovf now (lit "!AIABM,1,1,0") p = (Err (unsupported_error (lit "!ABM")), p).
Proof.
  split.
  - apply (c07_unsupported_formatter ovf now _ p (lit "$GPZDA,160012.71,11,03,2004,-1,00") [] (lit "$") (lit "GP") (lit "ZDA")
      (lit "160012.71,11,03,2004,-1,00")); [left; split; [not_in|]; split; reflexivity|now left|reflexivity|not_in|reflexivity|reflexivity|].
    left. split; [reflexivity|not_in].
  - apply (c07_unsupported_formatter ovf now _ p (lit "!AIABM,1,1,0") [] (lit "!") (lit "AI") (lit "ABM")
      (lit "1,1,0")); [left; split; [not_in|]; split; reflexivity|now left|reflexivity|not_in|reflexivity|reflexivity|].
    right. split; [reflexivity|not_in].
Qed.

Example c07_unsupported_type_case ovf now p :
  parse_sentence ovf now (lit "$PGRMZA,1") p = (Err (unsupported_error (lit "$PGRMZA")), p) /\
  parse_sentence ovf now (lit "#Q,1") p = (Err (unsupported_error (lit "#Q")), p).
Proof.
  split.
  - apply (c07_unsupported_type ovf now _ p (lit "$PGRMZA,1") [] (lit "$PGRMZA") (lit "1"));
      [left; split; [not_in|]; split; reflexivity|now left|reflexivity|not_in|].
    left. exists (lit "$"), (lit "PG"), (lit "RMZA"). split; [reflexivity|]. split; [now left|]. split; [reflexivity|]. vm_compute. lia.
  - apply (c07_unsupported_type ovf now _ p (lit "#Q,1") [] (lit "#Q") (lit "1"));
      [left; split; [not_in|]; split; reflexivity|now left|reflexivity|not_in|].
    right. exists 35, (lit "Q"). repeat split; discriminate.
Qed.

(** ** C16, C62, C17, C18, C38 *)

Example c16_unassemblable_incomplete_case ovf now p :
  parse_sentence ovf now (lit "!AIVDM,3,1,7,A,55?MbV02,0") p = (Ok PsIncomplete, p) /\
  parse_sentence ovf now (lit "!AIVDM,2,1,,A,55?MbV02,0") p = (Ok PsIncomplete, p) /\
  parse_sentence ovf now (lit "!AIVDM,2,3,7,A,55?MbV02,0") p = (Ok PsIncomplete, p).
Proof.
  split; [|split].
  - apply (c16_unassemblable_incomplete ovf now _ p (lit "AI") (lit "VDM") (map lit ["3"; "1"; "7"; "A"; "55?MbV02"; "0"]%string) (lit "3") 3);
      [apply check_vdm; [vm_compute; auto|reflexivity]|reflexivity|now apply dec_is_denoted|lia| |left; lia].
    intros f [= <-]. exists 1. split; [now apply dec_is_denoted|lia].
  - apply (c16_unassemblable_incomplete ovf now _ p (lit "AI") (lit "VDM") (map lit ["2"; "1"; ""; "A"; "55?MbV02"; "0"]%string) (lit "2") 2);
      [apply check_vdm; [vm_compute; auto|reflexivity]|reflexivity|now apply dec_is_denoted|lia| |].
    + intros f [= <-]. exists 1. split; [now apply dec_is_denoted|lia].
    + right. left. split; [reflexivity|]. intros i (f & [= <-] & Hd & _). destruct Hd as (ds & [<-|E] & [H _] & _); [tauto|discriminate].
  - apply (c16_unassemblable_incomplete ovf now _ p (lit "AI") (lit "VDM") (map lit ["2"; "3"; "7"; "A"; "55?MbV02"; "0"]%string) (lit "2") 2);
      [apply check_vdm; [vm_compute; auto|reflexivity]|reflexivity|now apply dec_is_denoted|lia| |].
    + intros f [= <-]. exists 3. split; [now apply dec_is_denoted|lia].
    + right. right. split; [reflexivity|].
      split; intros (f & [= <-] & Hd); assert (H : denotes (lit "3") 3) by (now apply dec_is_denoted);
        pose proof (denotes_unique _ _ _ H Hd); discriminate.
Qed.

Example c62_unreadable_fragment_numbers_case ovf now p :
  parse_sentence ovf now (lit "!AIVDM,1,256,,A,15RTgt0P,0") p = (Err (InvalidSentence (lit "Failed to parse fragment count: 256")), p) /\
  parse_sentence ovf now (lit "!AIVDM,,1,,A,15RTgt0P,0") p = (Err (InvalidSentence (lit "Failed to parse fragment count: ")), p).
Proof.
  assert (H1 : unreadable (lit "256")).
  { intros v Hv. assert (H : denotes (lit "256") 256) by (now apply dec_is_denoted). pose proof (denotes_unique _ _ _ H Hv) as <-. lia. }
  assert (H2 : unreadable []) by (intros v (ds & [<-|E] & [H _] & _); [tauto|discriminate]).
  split.
  - apply (c62_unreadable_fragment_numbers ovf now _ p (lit "AI") (lit "VDM") (map lit ["1"; "256"; ""; "A"; "15RTgt0P"; "0"]%string) (lit "256"));
      [apply check_vdm; [vm_compute; auto|reflexivity]|exact H1|].
    right. split; [reflexivity|]. exists (lit "1"), 1. split; [reflexivity|]. split; [now apply dec_is_denoted|lia].
  - apply (c62_unreadable_fragment_numbers ovf now _ p (lit "AI") (lit "VDM") (map lit [""; "1"; ""; "A"; "15RTgt0P"; "0"]%string) []);
      [apply check_vdm; [vm_compute; auto|reflexivity]|exact H2|]. now left.
Qed.

Example c17_armor_decoded_case ovf : let bits := be_bits 30 351759000 in
  Nat.divide 6 (List.length bits) /\ parse_payload ovf (armor bits) = Ok bits.
Proof. cbv zeta. assert (H : Nat.divide 6 (List.length (be_bits 30 351759000))) by (now exists 5%nat). split; [exact H|now apply c17_armor_decoded]. Qed.

Example c18_case now p :
  parse_sentence true now (lit "!AIVDM,1,1,,A,15R!gt,0") p = (Panic, p) /\
  (exists bits, List.length bits = 36%nat /\ forall s', one_fragment s' (lit "AI") (lit "VDM") (armor bits) ->
     parse_sentence false now (lit "!AIVDM,1,1,,A,15R!gt,0") p = parse_sentence false now s' p) /\
  (exists bits, List.length bits = 36%nat /\ forall s', one_fragment s' (lit "AI") (lit "VDM") (armor bits) ->
     parse_sentence true now (lit "!AIVDM,1,1,,A,15RXgz,0") p = parse_sentence true now s' p).
Proof.
  split; [|split].
  - apply (c18_checked_build_panics now _ p (lit "AI") (lit "VDM") (lit "15R!gt")); [message|].
    do 3 right. left. vm_compute. reflexivity.
  - apply (c18_anything_is_decoded false now _ p (lit "AI") (lit "VDM") (lit "15R!gt")); [message|now left].
  - apply (c18_anything_is_decoded true now _ p (lit "AI") (lit "VDM") (lit "15RXgz")); [message|].
    right. repeat constructor; vm_compute; discriminate.
Qed.

(** ** C12, C13, C14, C15, C60, C10 *)

Lemma nothing_waits fff mid channel n x : ~ waiting new_parser fff mid channel n x.
Proof. intros H. discriminate H. Qed.

Example c12_fragments_reversed_case ovf :
  run ovf ((ex_now, ex_second) :: ex_between ++ [(ex_now, ex_first)]) new_parser =
  (Ok PsIncomplete :: results ovf ex_between new_parser ++ [fst (parse_sentence ovf ex_now ex_whole (after ovf ex_between new_parser))],
   snd (parse_sentence ovf ex_now ex_whole (after ovf ex_between new_parser))).
Proof.
  destruct c11_example as (H1 & H2 & H3 & H4 & _).
  apply (c12_fragments_reversed ovf ex_now ex_now ex_between new_parser new_parser ex_first ex_second (lit "AI") (lit "AI") (lit "VDM") 1 (lit "A")
    ex_first_payload ex_second_payload ex_whole H2 H1 H3); [intros x; apply nothing_waits| |now intros e|exact H4].
  repeat split; reflexivity.
Qed.

Example c11_fragments_in_order_case ovf :
  run ovf ((ex_now, ex_first) :: ex_between ++ [(ex_now, ex_second)]) new_parser =
  (Ok PsIncomplete :: results ovf ex_between new_parser ++ [fst (parse_sentence ovf ex_now ex_whole (after ovf ex_between new_parser))],
   snd (parse_sentence ovf ex_now ex_whole (after ovf ex_between new_parser))).
Proof.
  destruct c11_example as (H1 & H2 & H3 & H4 & _).
  apply (c11_fragments_in_order ovf ex_now ex_now ex_between new_parser new_parser ex_first ex_second (lit "AI") (lit "AI") (lit "VDM") 1 (lit "A")
    ex_first_payload ex_second_payload ex_whole H1 H2 H3); [intros x; apply nothing_waits| |now intros e|exact H4].
  repeat split; reflexivity.
Qed.

Example c13_finished_message_forgotten_case ovf k :
  stored (after ovf ((ex_now, ex_second) :: ex_between ++ [(ex_now, ex_first)]) new_parser) (Text k) =
  stored (after ovf ex_between new_parser) (Text k).
Proof.
  destruct c11_example as (H1 & H2 & _ & H4 & _).
  apply (c13_finished_message_forgotten ovf ex_now ex_now ex_between new_parser ex_second ex_first (lit "AI") (lit "AI") (lit "VDM") 1 (lit "A")
    2 1 ex_second_payload ex_first_payload H2 H1); [discriminate|repeat split; reflexivity|exact H4].
Qed.

Example c15_talkers_kept_apart_refuted_case :
  lit "AB" <> lit "AI" /\ not_waiting new_parser (lit "VDM") 1 (lit "A").
Proof. split; [discriminate|repeat split; reflexivity]. Qed.

Example c60_panic_reachable_case :
  let p := snd (parse_sentence true ex_now ex_first new_parser) in
  let s := lit "!AIVDM,1,1,,A,4,0" in
  reachable true p /\ fst (parse_sentence true ex_now s p) = Panic /\ reachable true (snd (parse_sentence true ex_now s p)).
Proof.
  cbv zeta. assert (R : reachable true (snd (parse_sentence true ex_now ex_first new_parser))) by (apply reachable_step; now exists []).
  assert (P : fst (parse_sentence true ex_now (lit "!AIVDM,1,1,,A,4,0") (snd (parse_sentence true ex_now ex_first new_parser))) = Panic)
    by (vm_compute; reflexivity).
  split; [exact R|]. split; [exact P|]. now apply c60_panic_reachable.
Qed.

Example c10_gnss_stateless_case ovf now : exists r, forall p, parse_sentence ovf now ex_gsa p = (r, p).
Proof.
  apply (c10_gnss_stateless ovf now ex_gsa (lit "GP") (lit "GSA") (tl (split_on 44 ex_gsa)));
    [apply check_sentence; vm_compute; split; reflexivity|reflexivity|cbn; tauto].
Qed.

Example c10_stateless_case ovf now : exists r, forall p, parse_sentence ovf now ex_gsa p = (r, p).
Proof.
  assert (S : sentence ex_gsa (split_on 44 ex_gsa)) by (apply check_sentence; vm_compute; split; reflexivity).
  apply c10_stateless.
  - intros tt fff mid channel n payload H. destruct H as (fields & a & b & c & (H & _ & L & F) & _).
    pose proof (sentence_unique _ _ _ S H) as E. discriminate E.
  - intros tt c n H. destruct H as (fields & (H & _) & _). pose proof (sentence_unique _ _ _ S H) as E.
    apply (f_equal (fun l => last (hd [] l) 0)) in E. cbn [hd] in E.
    replace (lit "$" ++ tt ++ lit "GSV") with ((lit "$" ++ tt ++ lit "GS") ++ [86]) in E by (now rewrite <- !app_assoc).
    rewrite last_last in E. discriminate E.
  - intros tt fff payload H. destruct H as (a & b & c & d & n & (more & H & _) & _).
    pose proof (sentence_unique _ _ _ S H) as E. discriminate E.
Qed.
