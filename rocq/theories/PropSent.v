(** C94 and C81 for single calls: a message that came in two sentences is reported as if it had come in
    one. *)
From stdpp Require Import gmap.
From Coq Require Import List NArith ZArith Bool String Lia.
From Verif Require Import Base Str F64 Chrono Types Util AisMod Vdm Gnss Parser Equality
  SpecText SpecResult SpecAis SpecTime SpecState SpecEq SpecSame SpecSameStatic
  StrFacts FrontFacts CallFacts ResultFacts BitFacts VdmFacts LayoutFacts StateFacts
  PropFront PropAis PropState PropStatic PropAssembly PropSame PropSameStatic.
Import ListNotations.
Open Scope N_scope.
Local Opaque pick_string pick_u64 pick_i64 pick_eta parse_f64 be_value.

Lemma fragment_formatter s tt fff mid channel n x : fragment s tt fff mid channel n x -> formatter fff.
Proof. intros (fields & count & number & id & (_ & _ & _ & Hf) & _). exact Hf. Qed.

(** Whichever half comes last: the answer is that to one sentence with the whole message, from a talker of
    the same kind as that of the last half, and the vessels remembered afterwards are the same. *)
Theorem c94_as_one_sentence ovf now s tt fff p payload whole tt' st :
  completes s tt fff p payload -> names_station tt st ->
  one_fragment whole tt' fff payload -> names_station tt' st ->
  fst (parse_sentence ovf now s p) = fst (parse_sentence ovf now whole p) /\
  forall mmsi, stored (snd (parse_sentence ovf now s p)) (Vessel mmsi)
    = stored (snd (parse_sentence ovf now whole p)) (Vessel mmsi).
Proof.
  intros C N1 W N2. destruct (completes_step ovf now s tt fff p payload C) as (q & Q & ->).
  rewrite (one_fragment_step ovf now whole p tt' fff payload W).
  rewrite <- (names_station_unique _ _ _ N1 (names_station_station tt)), <- (names_station_unique _ _ _ N2 (names_station_station tt')).
  destruct (decode_act ovf now fff payload st) as [(r & H)|(bits & v & _ & _ & _ & _ & _ & _ & H)]; rewrite !H.
  - cbn [fst snd stored]. now rewrite Q.
  - unfold t24_store, pull_vsd, push_vsd. cbn [stored]. rewrite Q.
    destruct (saved_vsds p !! vsd_mmsi v); cbn [fst snd saved_vsds]; rewrite ?Q; auto.
Qed.
Print Assumptions c94_as_one_sentence.

Lemma some_sentence st fff bits : formatter fff ->
  exists whole tt, one_fragment whole tt fff (armor bits) /\ names_station tt st.
Proof.
  intros Hf. assert (T : exists tt, utf8_bytes tt = 2%nat /\ plain tt /\ names_station tt st).
  { destruct st; [exists (lit "AB")|exists (lit "AD")|exists (lit "AI")|exists (lit "AN")|exists (lit "AR")|exists (lit "AS")
      |exists (lit "AT")|exists (lit "AX")|exists (lit "ZZ")].
    all: split; [reflexivity|]; split; [now apply plain_lit_dec|].
    all: match goal with |- names_station ?t _ => exact (names_station_station t) end. }
  destruct T as (tt & T1 & T2 & T3). exists (encode_sentence tt fff (lit "A") bits), tt. split; [|exact T3].
  apply encode_sentence_one_fragment; auto. now apply plain_lit_dec.
Qed.

Lemma completes_formatter s tt fff p payload : completes s tt fff p payload -> formatter fff.
Proof.
  intros [x (c & n & i & ch & k & (r & _ & _ & _ & Hf) & _)|mid ch a b H _|mid ch a b H _]; [exact Hf|..]; now apply fragment_formatter in H.
Qed.

Lemma as_one ovf now s tt fff st p bits r p' :
  completes s tt fff p (armor bits) -> names_station tt st -> parse_sentence ovf now s p = (Ok r, p') ->
  exists whole tt' q, one_fragment whole tt' fff (armor bits) /\ names_station tt' st /\ parse_sentence ovf now whole p = (Ok r, q).
Proof.
  intros C N H. destruct (some_sentence st fff bits (completes_formatter _ _ _ _ _ C)) as (whole & tt' & W & N').
  exists whole, tt', (snd (parse_sentence ovf now whole p)). split; [exact W|]. split; [exact N'|].
  destruct (c94_as_one_sentence ovf now s tt fff p _ whole tt' st C N W N') as [E _]. rewrite H in E. cbn [fst] in E.
  rewrite E. now destruct (parse_sentence ovf now whole p).
Qed.

(** Voyage data and aids to navigation that came in one sentence or in two, each on its own parser. *)
Theorem c81_voyage_sent_partial ovf now1 now2 s1 s2 p1 p2 tt1 tt2 fff1 fff2 m1 m2 bits1 bits2 rest1 rest2 r1 r2 p1' p2' :
  completes s1 tt1 fff1 p1 (armor (bits1 ++ rest1)) -> voyage_layout m1 bits1 -> voyage_fits m1 ->
  clock now1 -> arrival_known (dt_year now1) m1 ->
  completes s2 tt2 fff2 p2 (armor (bits2 ++ rest2)) -> voyage_layout m2 bits2 -> voyage_fits m2 ->
  clock now2 -> arrival_known (dt_year now2) m2 ->
  parse_sentence ovf now1 s1 p1 = (Ok r1, p1') -> parse_sentence ovf now2 s2 p2 = (Ok r2, p2') ->
  ParsedSentence_eqb r1 r2 = true <-> fff1 = fff2 /\ dt_year now1 = dt_year now2 /\ voyage_confused m1 m2.
Proof.
  intros S1 L1 F1 C1 K1 S2 L2 F2 C2 K2 H1 H2.
  destruct (as_one _ _ _ _ _ _ _ _ _ _ S1 (names_station_station tt1) H1) as (w1 & t1 & q1 & W1 & _ & E1).
  destruct (as_one _ _ _ _ _ _ _ _ _ _ S2 (names_station_station tt2) H2) as (w2 & t2 & q2 & W2 & _ & E2).
  exact (c81_voyage_partial ovf now1 now2 w1 w2 p1 p2 t1 t2 fff1 fff2 m1 m2 bits1 bits2 rest1 rest2 r1 r2 q1 q2
    W1 L1 F1 C1 K1 W2 L2 F2 C2 K2 E1 E2).
Qed.
Print Assumptions c81_voyage_sent_partial.

Theorem c81_aid_sent_partial ovf now1 now2 s1 s2 p1 p2 tt1 tt2 fff1 fff2 st1 st2 m1 m2 bits1 bits2 r1 r2 p1' p2' :
  completes s1 tt1 fff1 p1 (armor bits1) -> names_station tt1 st1 -> aid_layout m1 bits1 -> aid_fits m1 ->
  completes s2 tt2 fff2 p2 (armor bits2) -> names_station tt2 st2 -> aid_layout m2 bits2 -> aid_fits m2 ->
  parse_sentence ovf now1 s1 p1 = (Ok r1, p1') -> parse_sentence ovf now2 s2 p2 = (Ok r2, p2') ->
  ParsedSentence_eqb r1 r2 = true <-> st1 = st2 /\ fff1 = fff2 /\ aid_confused m1 m2.
Proof.
  intros S1 N1 L1 F1 S2 N2 L2 F2 H1 H2.
  destruct (as_one _ _ _ _ _ _ _ _ _ _ S1 N1 H1) as (w1 & t1 & q1 & W1 & M1 & E1).
  destruct (as_one _ _ _ _ _ _ _ _ _ _ S2 N2 H2) as (w2 & t2 & q2 & W2 & M2 & E2).
  exact (c81_aid_partial ovf now1 now2 w1 w2 p1 p2 t1 t2 fff1 fff2 st1 st2 m1 m2 bits1 bits2 r1 r2 q1 q2
    W1 M1 L1 F1 W2 M2 L2 F2 E1 E2).
Qed.
Print Assumptions c81_aid_sent_partial.

(** Two voyages that differ in the draught, each sent in two sentences on the same parser: the second one with
    its halves exchanged. *)
Definition ex_payload (draught : N) : str := armor (ex_voyage_bits 70 draught ++ []).
Definition ex_half (draught n : N) : str :=
  lit "!AIVDM,2," ++ dec n ++ lit ",3,A," ++
    (if n =? 1 then firstn 60 (ex_payload draught) else skipn 60 (ex_payload draught)) ++ lit ",0".

Example c81_sent_example :
  let p1 := snd (parse_sentence true ex_now (ex_half 122 1) new_parser) in
  let p2 := snd (parse_sentence true ex_now (ex_half 123 2) new_parser) in
  completes (ex_half 122 2) (lit "AI") (lit "VDM") p1 (armor (ex_voyage_bits 70 122 ++ [])) /\
  completes (ex_half 123 1) (lit "AI") (lit "VDM") p2 (armor (ex_voyage_bits 70 123 ++ [])) /\
  voyage_layout (ex_voyage_data 70 122) (ex_voyage_bits 70 122) /\ voyage_layout (ex_voyage_data 70 123) (ex_voyage_bits 70 123) /\
  exists r1 r2 p1' p2', parse_sentence true ex_now (ex_half 122 2) p1 = (Ok r1, p1') /\
    parse_sentence true ex_now (ex_half 123 1) p2 = (Ok r2, p2') /\ ParsedSentence_eqb r1 r2 = false.
Proof.
  cbv zeta. split; [|split; [|split; [apply ex_voyage_layout|split; [apply ex_voyage_layout|]]]].
  - assert (E : armor (ex_voyage_bits 70 122 ++ []) = firstn 60 (ex_payload 122) ++ skipn 60 (ex_payload 122)) by (symmetry; apply List.firstn_skipn).
    rewrite E. apply (complete_second _ _ _ _ 3 (lit "A")).
    + apply (check_fragment _ _ _ _ _ _ _ [lit "0"]); [|now right|reflexivity]. apply check_vdm; [|reflexivity]. vm_compute. auto.
    + vm_compute. reflexivity.
  - assert (E : armor (ex_voyage_bits 70 123 ++ []) = firstn 60 (ex_payload 123) ++ skipn 60 (ex_payload 123)) by (symmetry; apply List.firstn_skipn).
    rewrite E. apply (complete_first _ _ _ _ 3 (lit "A")).
    + apply (check_fragment _ _ _ _ _ _ _ [lit "0"]); [|now left|reflexivity]. apply check_vdm; [|reflexivity]. vm_compute. auto.
    + vm_compute. reflexivity.
  - do 4 eexists. split; [vm_compute; reflexivity|]. split; [vm_compute; reflexivity|]. vm_compute. reflexivity.
Qed.

Example c94_as_one_sentence_example :
  let p := snd (parse_sentence true ex_now ex_first new_parser) in
  completes ex_second (lit "AI") (lit "VDM") p (ex_first_payload ++ ex_second_payload) /\
  one_fragment ex_whole (lit "AI") (lit "VDM") (ex_first_payload ++ ex_second_payload) /\
  names_station (lit "AI") StMobileStation /\
  reported_name (fst (parse_sentence true ex_now ex_second p)) = Some (lit "EVER DIADEM").
Proof.
  cbv zeta. split; [apply (complete_second _ _ _ _ 1 (lit "A")); [exact ex_second_fragment|vm_compute; reflexivity]|].
  split; [exact ex_whole_one|]. split; [left; cbn; tauto|]. vm_compute. reflexivity.
Qed.
