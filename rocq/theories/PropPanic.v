(** C08: exactly the calls that panic. *)
From stdpp Require Import gmap.
From Coq Require Import List NArith ZArith Bool String Lia.
From Verif Require Import Base Str F64 Chrono Types Util AisMod Vdm Gnss Parser
  SpecText SpecResult SpecAis SpecTime SpecState SpecGnss SpecReal SpecFields SpecPanic
  StrFacts FrontFacts CallFacts ResultFacts BitFacts VdmFacts LayoutFacts StateFacts RunFacts FieldFacts
  PropFront PropAis PropState PropStatic PropFields PropTables.
Import ListNotations.
Open Scope N_scope.
Local Opaque pick_string pick_u64 pick_i64 pick_eta parse_f64.

(** ** Sentence types *)

Lemma legible_recognized t : legible_type t <-> parse_type t <> None.
Proof.
  split.
  - intros (c & r & -> & Hc & H).
    destruct (N.eq_dec c 36) as [-> |N1]; [|destruct (N.eq_dec c 33) as [-> |N2]].
    1,2: destruct H as (tt & more & -> & Ht & Hm); [tauto|]; rewrite <- byte_len_spec in Ht, Hm;
      destruct (Nat.eq_dec (byte_len more) 3) as [E|E].
    + pose proof (RGnss tt more Ht E) as R. apply parse_type_recognized in R.
      intros X. change (lit "$" ++ tt ++ more) with (36 :: tt ++ more) in R. congruence.
    + pose proof (RLongGnss tt more Ht ltac:(lia)) as R. apply parse_type_recognized in R.
      intros X. change (lit "$" ++ tt ++ more) with (36 :: tt ++ more) in R. congruence.
    + pose proof (RAis tt more Ht E) as R. apply parse_type_recognized in R.
      intros X. change (lit "!" ++ tt ++ more) with (33 :: tt ++ more) in R. congruence.
    + pose proof (RLongAis tt more Ht ltac:(lia)) as R. apply parse_type_recognized in R.
      intros X. change (lit "!" ++ tt ++ more) with (33 :: tt ++ more) in R. congruence.
    + pose proof (ROther c r Hc N1 N2) as R. apply parse_type_recognized in R. congruence.
  - intros H. destruct (parse_type t) as [[[nav st] t2]|] eqn:E; [|congruence].
    apply parse_type_recognized in E.
    destruct E as [tt fff Ht Hf|tt fff Ht Hf|tt more Ht Hf|tt more Ht Hf|c r Hc H1 H2].
    1,3: exists 36; eexists; (split; [reflexivity|]); (split; [lia|]); intros _; eexists _, _;
      (split; [reflexivity|]); rewrite <- !byte_len_spec; lia.
    1,2: exists 33; eexists; (split; [reflexivity|]); (split; [lia|]); intros _; eexists _, _;
      (split; [reflexivity|]); rewrite <- !byte_len_spec; lia.
    exists c, r. split; [reflexivity|]. split; [exact Hc|]. intros [X|X]; congruence.
Qed.

(** ** Payloads *)


Lemma pick_string_ok {E} bv i n : exists s, @pick_string E bv i n = Ok s.
Proof. rewrite pick_string_codes. eauto. Qed.

Lemma t24_no_panic bv st p own : fst (handle_t24 bv st p own) <> Panic.
Proof.
  unfold handle_t24. destruct (_ || _); [|discriminate].
  destruct (t24_fields bv own _) as [v|e|] eqn:E.
  - cbv zeta. unfold t24_store. destruct (pull_vsd (vsd_mmsi v) p) as [[w|] q]; [|discriminate].
    unfold merge. repeat match goal with |- context [if ?b then _ else _] => destruct b; [discriminate|] end. discriminate.
  - discriminate.
  - exfalso. revert E. unfold t24_fields.
    repeat match goal with |- context [@pick_string ?E ?b ?i ?n] =>
      let x := fresh in destruct (@pick_string_ok E b i n) as [x ->] end. cbn [bind]. 
    repeat match goal with |- context [if ?b then _ else _] => destruct b end; cbn [bind]; discriminate.
Qed.

Lemma bits_small bv i n : (n <= 64)%nat -> fits (N.of_nat n) (pick_u64 bv i n).
Proof.
  intros H. rewrite pick_u64_spec by exact H. unfold fits. pose proof (be_value_lt (window bv i n)) as L.
  now rewrite window_length in L.
Qed.

Lemma dispatch_panic now t bv st own p :
  fst (dispatch_message now t bv st own p) = Panic <->
  (bits_at bv 0 6 = 4 /\
    ~ (valid_date (Z.of_N (bits_at bv 38 14)) (bits_at bv 52 4) (bits_at bv 56 5) /\
       valid_time (bits_at bv 61 5) (bits_at bv 66 6) (bits_at bv 72 6))) \/
  (bits_at bv 0 6 = 5 /\
    forall eta, ~ eta_report now (bits_at bv 274 4) (bits_at bv 278 5) (bits_at bv 283 5)
                    (bits_at bv 288 6) (bits_at bv 294 6) eta).
Proof.
  unfold bits_at. rewrite <- !pick_u64_spec by lia.
  destruct (dispatch_message_case now t bv st own p) as [n Hn| | | | | | | | | | |n Hn]; cbn [fst].
  all: try (split; [discriminate|intros [[X _]|[X _]]; (discriminate X || lia)]).
  - (* 4 *)
    unfold handle_t4.
    assert (Y : as_i32 (Z.of_N (pick_u64 bv 38 14)) = Z.of_N (pick_u64 bv 38 14)).
    { pose proof (bits_small bv 38 14 ltac:(lia)) as L. unfold fits in L. change (N.of_nat 14) with 14 in L.
      change (2 ^ 14) with 16384 in L. unfold as_i32. cbv zeta. rewrite Z.mod_small by lia.
      destruct (Z.ltb_spec (Z.of_N (pick_u64 bv 38 14)) 2147483648); lia. }
    rewrite Y.
    rewrite (small_u32 4 _ (bits_small bv 52 4 ltac:(lia))), (small_u32 5 _ (bits_small bv 56 5 ltac:(lia))),
      (small_u32 5 _ (bits_small bv 61 5 ltac:(lia))), (small_u32 6 _ (bits_small bv 66 6 ltac:(lia))),
      (small_u32 6 _ (bits_small bv 72 6 ltac:(lia))) by lia.
    destruct (@ymd_and_hms_cases ParseError (Z.of_N (pick_u64 bv 38 14)) (pick_u64 bv 52 4) (pick_u64 bv 56 5)
      (pick_u64 bv 61 5) (pick_u64 bv 66 6) (pick_u64 bv 72 6)) as [(-> & _ & V)|(-> & V)]; cbn [bind].
    + split; [discriminate|]. intros [[_ X]|[X _]]; [now destruct X|discriminate X].
    + split; [|reflexivity]. intros _. left. split; [reflexivity|]. intros W. apply V. split; [|exact W].
      pose proof (bits_small bv 38 14 ltac:(lia)) as L. unfold fits in L. change (N.of_nat 14) with 14 in L.
      change (2 ^ 14) with 16384 in L. unfold year_in_range. lia.
  - (* 5 *)
    unfold handle_t5.
    repeat match goal with |- context [@pick_string ?E ?b ?i ?n] =>
      let x := fresh in destruct (@pick_string_ok E b i n) as [x ->] end. cbn [bind].
    destruct (@eta_cases ParseError bv 274 now (pick_u64 bv 274 4) (pick_u64 bv 278 5) (pick_u64 bv 283 5)
      (pick_u64 bv 288 6) (pick_u64 bv 294 6)) as [(eta & -> & R)|(-> & R)]; try reflexivity;
      try (apply (bits_small bv); lia); cbn [bind].
    + split; [discriminate|]. intros [[X _]|[_ X]]; [discriminate X|]. now destruct (X eta).
    + split; [|reflexivity]. intros _. right. split; [reflexivity|exact R].
  - (* 21 *)
    unfold handle_t21.
    repeat match goal with |- context [@pick_string ?E ?b ?i ?n] =>
      let x := fresh in destruct (@pick_string_ok E b i n) as [x ->] end. cbn [bind].
    split; [discriminate|intros [[X _]|[X _]]; discriminate X].
  - (* 24 *)
    split; [intros X; now destruct (t24_no_panic bv st p own)|intros [[X _]|[X _]]; discriminate X].
  - split; [discriminate|]. intros [[-> _]|[-> _]]; exfalso; apply Hn; cbn [In]; tauto.
Qed.

Lemma decode_bad ovf now fff payload st p :
  fst (decode_payload ovf now fff payload st p) = Panic <-> bad_payload ovf now payload.
Proof.
  unfold decode_payload. destruct (parse_payload_cases ovf payload) as [(bits & E)|(-> & X & ->)].
  - rewrite E. pose proof (payload_bits_model _ _ _ E) as Eb. rewrite dispatch_panic. split.
    + intros [[T V]|[T V]]; [now apply (bad_time ovf now payload bits)|now apply (bad_eta ovf now payload bits)].
    + intros [Ho X|b Hb T V|b Hb T V].
      * subst ovf. rewrite parse_payload_panic in E by exact X. discriminate.
      * subst b. rewrite <- Eb in *. now left.
      * subst b. rewrite <- Eb in *. now right.
  - split; [|reflexivity]. intros _. now apply bad_character.
Qed.

(** ** Calls *)

Lemma completes_panic ovf now s p tt fff payload : completes s tt fff p payload ->
  exists q, parse_sentence ovf now s p = decode_payload ovf now fff payload (station_of_talker tt) q.
Proof.
  intros [pl H|mid channel a b H W|mid channel a b H W].
  - exists p. now apply one_fragment_step.
  - rewrite (fragment_vdm_step ovf now s p _ _ _ _ _ _ H). change (2 =? 1) with false. cbv iota. unfold second_step.
    apply stored_kept in W. rewrite W. eauto.
  - rewrite (fragment_vdm_step ovf now s p _ _ _ _ _ _ H). change (1 =? 1) with true. cbv iota. unfold first_step.
    apply stored_kept in W. rewrite W. eauto.
Qed.

Lemma safe_kind_panic ovf now s f p : kind true ovf now s f -> fst (f p) = Panic -> panics ovf now s p.
Proof.
  intros K H. destruct K as [r Hr|tt fff payload O|tt fff mid channel a Fr|tt fff mid channel b Fr|tt c n body given G Hb].
  - destruct (Hr eq_refl) as [X|[e X]]; cbn [fst] in H; congruence.
  - apply decode_bad in H. eapply panic_ais; [eapply complete_one; exact O|exact H].
  - unfold first_step in H. destruct (kept p _) as [b|] eqn:E; [|discriminate].
    apply decode_bad in H. eapply panic_ais; [|exact H]. eapply complete_first; [exact Fr|]. now apply stored_kept.
  - unfold second_step in H. destruct (kept p _) as [b'|] eqn:E; [|discriminate].
    apply decode_bad in H. eapply panic_ais; [|exact H]. eapply complete_second; [exact Fr|]. now apply stored_kept.
  - apply gsv_step_panic in H as (Ho & Hc & _). assert (c = 4294967295) as ->.
    { destruct G as (fields & _ & [[_ ->]|[_ Hl]] & _); unfold u32_max in Hc; lia. }
    eapply panic_gsv; eassumption.
Qed.

(** Exactly these calls panic. *)
Theorem c08_panics ovf now s p :
  clock now -> (0 <= dt_year now)%Z ->
  fst (parse_sentence ovf now s p) = Panic <-> panics ovf now s p.
Proof.
  intros Hnow Hy. split.
  - intros H. pose proof (parse_call ovf now s p) as C.
    remember (parse_sentence ovf now s p) as r eqn:Er.
    destruct C as [body given Hb Hc|body given Hb Hc Hp|body given t rest Hb Hc Hbody Hp Ht
      |body given tt fff rest r Hb Hc Hbody Hp Ht Hr|body given tt rest Hb Hc Hbody Hp Ht
      |body given tt fff rest Hb Hc Hbody Hp Ht Hf|body given t rest nav st t2 Hb Hc Hbody Hp Hr Hn]; try discriminate H.
    + apply (panic_type _ _ _ _ t (split_on 44 rest)).
      * eapply sentence_of; eassumption.
      * apply split_on_nonempty.
      * rewrite legible_recognized. tauto.
    + assert (G : gnss_with s tt fff (split_on 44 rest)).
      { split; [|split; [apply split_on_nonempty|now rewrite <- byte_len_spec]].
        eapply sentence_of; try eassumption. repeat apply plain_app; [now apply plain_lit_dec|exact Hp|].
        destruct Hr; now apply plain_lit_dec. }
      assert (H' : fst (parse_sentence ovf now s p) = Panic) by now rewrite <- Er.
      clear H Er. destruct Hr.
      * eapply panic_gga; [exact G|]. now apply (c39_gga ovf now s tt _ _ p G (names_system_nav tt) Hnow).
      * eapply panic_rmc; [exact G|]. now apply (c40_rmc ovf now s tt _ _ p G (names_system_nav tt) Hy).
      * exfalso. now apply (c41_gsa ovf now s tt _ _ p G (names_system_nav tt)).
      * exfalso. destruct (c43_vtg ovf now s tt _ _ p G (names_system_nav tt)) as [(d & E) _]. now rewrite E in H'.
      * apply (c42_gll ovf now s tt _ _ p G (names_system_nav tt) Hnow) in H' as [M T]. now apply (panic_gll _ _ _ _ tt (split_on 44 rest)).
    + destruct (gsv_kind ovf now s tt (split_on 44 rest)) as (f & K & E).
      { split; [|split; [apply split_on_nonempty|now rewrite <- byte_len_spec]].
        eapply sentence_of; try eassumption. now apply gsv_type_plain. }
      apply (safe_kind_panic _ _ _ f); [exact K|]. rewrite <- E, <- Er. exact H.
    + destruct (vdm_kind ovf now s tt fff (split_on 44 rest)) as (f & K & E).
      { split; [|split; [apply split_on_nonempty|split; [now rewrite <- byte_len_spec|exact Hf]]].
        eapply sentence_of; try eassumption. repeat apply plain_app; [now apply plain_lit_dec|exact Hp|].
        destruct Hf as [-> | ->]; now apply plain_lit_dec. }
      apply (safe_kind_panic _ _ _ f); [exact K|]. rewrite <- E, <- Er. exact H.
  - intros [t fields (body & given & Hb & Hc & Hf) Hne Hl|tt fields G T|tt fields G T|tt fields G M T|tt n G Ho
      |tt fff payload C B].
    + destruct Hf as (_ & Hp & Hj). rewrite join_cons in Hj by exact Hne. apply Forall_inv in Hp.
      rewrite (parse_bad_type ovf now s p body given t _ Hb Hc Hj Hp); [reflexivity|].
      rewrite legible_recognized in Hl. destruct (parse_type t); [|reflexivity]. exfalso. apply Hl. discriminate.
    + now apply (c39_gga ovf now s tt _ fields p G (names_system_nav tt) Hnow).
    + now apply (c40_rmc ovf now s tt _ fields p G (names_system_nav tt) Hy).
    + now apply (c42_gll ovf now s tt _ fields p G (names_system_nav tt) Hnow).
    + destruct (gsv_part_step ovf now s p tt _ n G) as (body & given & _ & ->). subst ovf. reflexivity.
    + destruct (completes_panic ovf now s p tt fff payload C) as (q & ->). now apply decode_bad.
Qed.
Print Assumptions c08_panics.

Lemma not_denotes_empty v : ~ denotes [] v.
Proof.
  intros (ds & H & [Hne _] & _). destruct H as [H|H]; [congruence|discriminate H].
Qed.

Lemma good_time_stamp now f : good_time f -> exists o, time_stamp now f o.
Proof. intros (h & m & s & D & V). exists (Some (today now h m s)). apply time_stamp_some; [now apply six_digits_time|exact V]. Qed.

(** Well-formed sentences never panic. *)
Theorem c08_well_formed_partial ovf now s p :
  clock now -> (0 <= dt_year now)%Z -> well_formed now s p ->
  fst (parse_sentence ovf now s p) <> Panic.
Proof.
  intros Hnow Hy [W1 W2 W3 W4 W5 W6] H. apply c08_panics in H; [|exact Hnow|exact Hy].
  destruct H as [t fields F Hne Hl|tt fields G T|tt fields G T|tt fields G M T|tt n G Ho|tt fff payload C B].
  - exact (Hl (W1 t fields F Hne)).
  - destruct (good_time_stamp now _ (W2 _ _ G)) as (o & X). exact (T o X).
  - destruct (W3 _ _ G) as [E|[E|[(h & m & c & D & V) (d & mo & y & D' & V' & R)]]].
    + apply (T None), date_time_none. intros d mo y h mi c (_ & _ & _ & X & _). rewrite E in X.
      now apply not_denotes_empty in X.
    + apply (T None), date_time_none. intros d mo y h mi c (X & _). rewrite E in X.
      now apply not_denotes_empty in X.
    + eapply T, (date_time_some _ _ _ d mo (Z.of_N y) h m c); try assumption.
      apply six_digits_pairs in D as (A1 & A2 & A3), D' as (B1 & B2 & B3).
      repeat (split; [assumption|]). split; [left; eauto|]. auto.
  - destruct (good_time_stamp now _ (W4 _ _ G)) as (o & X). exact (T o X).
  - apply W5 in G. lia.
  - destruct (W6 _ _ _ C) as [A B4 B5]. destruct B as [_ X|bits -> X Y|bits -> X Y].
    + apply Exists_exists in X as (c & Hc & Hlt). unfold armored in A. rewrite Forall_forall in A.
      apply A in Hc. assert (Z : 48 <= c < 120).
      { clear Hlt. vm_compute in Hc. repeat destruct Hc as [<-|Hc]; try lia. }
      rewrite N.mod_small in Hlt by lia. lia.
    + now apply Y, B4.
    + destruct (B5 X) as (V & Hh & Hm & Hd). destruct Hnow as (R & _).
      assert (Hs : bits_at (payload_bits payload) 294 6 <= 60).
      { revert Hd. unfold bits_at. change 8%nat with (6 + 2)%nat. rewrite window_split, be_value_app, window_length.
        change (2 ^ N.of_nat 2) with 4. lia. }
      eapply Y, (eta_some _ _ _ _ _ _ _ _ _ _ (if bits_at (payload_bits payload) 294 6 =? 60 then 59 else bits_at (payload_bits payload) 294 6)).
      * lia.
      * reflexivity.
      * reflexivity.
      * right. right. repeat split; lia.
      * exact R.
      * assert (bits_at (payload_bits payload) 274 4 <> 0 /\ bits_at (payload_bits payload) 278 5 <> 0) as [E1 E2].
        { unfold valid_date in V. lia. }
        apply N.eqb_neq in E1, E2. rewrite E1, E2. exact V.
      * unfold valid_time. destruct (N.eqb_spec (bits_at (payload_bits payload) 294 6) 60); lia.
Qed.
Print Assumptions c08_well_formed_partial.

Lemma formatter_unique tt fff tt' fff' : List.length fff = List.length fff' ->
  lit "$" ++ tt ++ fff = lit "$" ++ tt' ++ fff' -> fff = fff'.
Proof. intros H E. rewrite !app_assoc in E. now apply app_inj_2 in E as [_ E]. Qed.

Lemma completes_sentence s tt fff p payload : completes s tt fff p payload ->
  exists fields, sentence s ((lit "!" ++ tt ++ fff) :: fields) /\
    (fff = lit "VDM" \/ fff = lit "VDO") /\
    (nth 0 fields [] = lit "1" -> payload = nth 4 fields []).
Proof.
  intros [payload' (c & n & i & ch & k & (more & (H & _ & _ & Hf)) & _)|mid ch a b (fields & c & n & i & (H & _ & _ & Hf) & E & D & _) _
    |mid ch a b (fields & c & n & i & (H & _ & _ & Hf) & E & D & _) _].
  - eexists. split; [exact H|]. split; [exact Hf|]. reflexivity.
  - exists fields. split; [exact H|]. split; [exact Hf|]. intros X.
    destruct fields as [|f0 fs]; [discriminate E|]. cbn in E, X. injection E as ->. subst c.
    exfalso. destruct D as (ds & [<-|Y] & _ & V); [discriminate V|discriminate Y].
  - exists fields. split; [exact H|]. split; [exact Hf|]. intros X.
    destruct fields as [|f0 fs]; [discriminate E|]. cbn in E, X. injection E as ->. subst c.
    exfalso. destruct D as (ds & [<-|Y] & _ & V); [discriminate V|discriminate Y].
Qed.

(** The release build (and the debug build) panics on the first strings, the debug build on the last two. *)
Theorem c08_no_panic_refuted :
  (forall ovf s, In s [lit ","; lit "$GPX,"; lit "$GPGGA,,"; lit "$GPGGA,12351,"; lit "$GPGGA,240000,"; lit "$GPGLL,,,,,";
    lit "$GPRMC,225446,A,,,,,,,310294,,"; lit "!AIVDM,1,1,,A,4,0"; ex_voyage_sentence 71 5 15 14 0 244] ->
   fst (parse_sentence ovf ex_now s new_parser) = Panic) /\
  (forall s, In s [lit "$GPGSV,4294967295,1"; lit "!AIVDM,1,1,,A,15RTgt 0,0"] ->
   fst (parse_sentence true ex_now s new_parser) = Panic /\
   fst (parse_sentence false ex_now s new_parser) <> Panic).
Proof.
  split.
  - intros ovf s Hi. cbn [In] in Hi.
    repeat match goal with H : _ \/ _ |- _ => destruct H as [<-|Hi] | H : False |- _ => destruct H end;
      destruct ovf; vm_compute; reflexivity.
  - intros s Hi. cbn [In] in Hi.
    repeat match goal with H : _ \/ _ |- _ => destruct H as [<-|Hi] | H : False |- _ => destruct H end;
      (split; [vm_compute; reflexivity|vm_compute; discriminate]).
Qed.
Print Assumptions c08_no_panic_refuted.

Example c08_example p :
  well_formed ex_now ex_rmc_fields p /\ well_formed ex_now (ex_voyage_sentence 71 5 15 14 0 122) p /\ clock ex_now.
Proof.
  split; [|split].
  - assert (exists fields, gnss_with ex_rmc_fields (lit "GN") (lit "RMC") fields /\ fld fields 8 = lit "191194" /\ fld fields 0 = lit "225446.33") as (fs & G & E1 & E2).
    { eexists. split; [gnss|]. split; reflexivity. }
    pose proof G as (F & Hne & Hb). split.
    + intros t fields F' _. pose proof (sentence_unique _ _ _ F' F) as E. injection E as -> ->.
      exists 36. eexists. split; [reflexivity|]. split; [lia|]. intros _. exists (lit "GN"), (lit "RMC").
      repeat split. vm_compute. lia.
    + intros tt fields (F' & _). pose proof (sentence_unique _ _ _ F' F) as E.
      apply (f_equal (hd [])) in E. exfalso. apply formatter_unique in E; [discriminate E|reflexivity].
    + intros tt fields (F' & _). pose proof (sentence_unique _ _ _ F' F) as E. injection E as E ->.
      right. right. rewrite E1, E2. split.
      * exists 22, 54, 46. split; [|vm_compute; repeat split; reflexivity].
        exists 50, 50, 53, 52, 52, 54, (lit ".33"). split; [reflexivity|]. split; [repeat constructor; discriminate|auto].
      * exists 19, 11, 94. split.
        { exists 49, 57, 49, 49, 57, 52, []. split; [reflexivity|]. split; [repeat constructor; discriminate|auto]. }
        split; vm_compute; intuition discriminate.
    + intros tt fields (F' & _). pose proof (sentence_unique _ _ _ F' F) as E.
      apply (f_equal (hd [])) in E. exfalso. apply formatter_unique in E; [discriminate E|reflexivity].
    + intros tt c n (fields & (F' & _) & _). pose proof (sentence_unique _ _ _ F' F) as E.
      apply (f_equal (hd [])) in E. exfalso. apply formatter_unique in E; [discriminate E|reflexivity].
    + intros tt fff payload C. apply completes_sentence in C as (fields & F' & _).
      pose proof (sentence_unique _ _ _ F' F) as E. discriminate E.
  - assert (exists fields, sentence (ex_voyage_sentence 71 5 15 14 0 122) (lit "!AIVDM" :: fields) /\
      nth 0 fields [] = lit "1" /\ nth 4 fields [] = lit "55?MbV02;H;s<HtKR20EHE:0@T4@Dn2222222217L961O5Gf0NSQEp6ClRp888888888880") as (fs & F & E0 & E4).
    { eexists. split; [apply check_sentence; vm_compute; split; reflexivity|].  split; vm_compute; reflexivity. }
    split.
    + intros t fields F' _. pose proof (sentence_unique _ _ _ F' F) as E. injection E as -> ->.
      exists 33. eexists. split; [reflexivity|]. split; [lia|]. intros _. exists (lit "AI"), (lit "VDM").
      repeat split. vm_compute. lia.
    + intros tt fields (F' & _). pose proof (sentence_unique _ _ _ F' F) as E. discriminate E.
    + intros tt fields (F' & _). pose proof (sentence_unique _ _ _ F' F) as E. discriminate E.
    + intros tt fields (F' & _). pose proof (sentence_unique _ _ _ F' F) as E. discriminate E.
    + intros tt c n (fields & (F' & _) & _). pose proof (sentence_unique _ _ _ F' F) as E. discriminate E.
    + intros tt fff payload C. apply completes_sentence in C as (fields & F' & _ & X).
      pose proof (sentence_unique _ _ _ F' F) as E. injection E as _ ->. rewrite (eq_trans (X E0) E4). split.
      * apply check_armored. reflexivity.
      * vm_compute. discriminate.
      * intros _. vm_compute. intuition discriminate.
  - vm_compute. intuition discriminate.
Qed.
