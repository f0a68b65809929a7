(** For C100: every AIS message of any bits, field by field. *)
From stdpp Require Import gmap.
From Coq Require Import List NArith ZArith Bool String Lia.
From Verif Require Import Base Str F64 Chrono Types Util AisMod Vdm Gnss Parser
  SpecText SpecResult SpecAis SpecTime SpecMeasure SpecState SpecGnss SpecReal SpecFields SpecPanic SpecError SpecWait SpecMerge
  SpecDirect SpecComplete
  StrFacts FrontFacts CallFacts ResultFacts BitFacts VdmFacts LayoutFacts StateFacts RunFacts FieldFacts
  PropFront PropAis PropState PropBits PropStatic PropGsv PropMix PropFields PropTables PropPanic PropError PropWait
  PropGroups PropPairs PropDirect PropStates.
Import ListNotations.
Open Scope N_scope.
Local Opaque pick_string pick_u64 pick_i64 pick_eta parse_f64 be_value.

(** ** Fields of any bits *)

Lemma at_u64 bits i n : (n <= 64)%nat -> pick_u64 bits i n = bits_at bits i n.
Proof. exact (pick_u64_spec bits i n). Qed.

Lemma at_fits bits i n : fits (N.of_nat n) (bits_at bits i n).
Proof. unfold fits, bits_at. pose proof (be_value_lt (window bits i n)) as H. now rewrite window_length in H. Qed.

Lemma at_u8 bits i n : (n <= 8)%nat -> as_u8 (pick_u64 bits i n) = bits_at bits i n.
Proof. intros H. rewrite at_u64 by lia. apply (small_u8 (N.of_nat n)); [apply at_fits|lia]. Qed.
Lemma at_u16 bits i n : (n <= 16)%nat -> as_u16 (pick_u64 bits i n) = bits_at bits i n.
Proof. intros H. rewrite at_u64 by lia. apply (small_u16 (N.of_nat n)); [apply at_fits|lia]. Qed.
Lemma at_u32 bits i n : (n <= 32)%nat -> as_u32 (pick_u64 bits i n) = bits_at bits i n.
Proof. intros H. rewrite at_u64 by lia. apply (small_u32 (N.of_nat n)); [apply at_fits|lia]. Qed.

Lemma at_i64 bits i n : (n < 64)%nat -> pick_i64 bits i (S n) = signed_at bits i (S n).
Proof. exact (pick_i64_spec bits i n). Qed.

Lemma signed_fits bits i n : fits_signed (Z.of_nat (S n)) (signed_at bits i (S n)).
Proof.
  unfold fits_signed, signed_at. rewrite (signed_value_of _ n) by apply window_length.
  pose proof (be_value_lt (window bits i (S n))) as H. rewrite window_length in H.
  replace (Z.of_nat (S n) - 1)%Z with (Z.of_nat n) by lia.
  assert (E : (2 ^ Z.of_nat (S n) = 2 * 2 ^ Z.of_nat n)%Z) by (rewrite Nat2Z.inj_succ, Z.pow_succ_r; lia).
  assert (E' : 2 ^ N.of_nat (S n) = 2 * 2 ^ N.of_nat n) by (rewrite Nat2N.inj_succ, N.pow_succ_r'; lia).
  assert (E2 : Z.of_N (2 ^ N.of_nat n) = (2 ^ Z.of_nat n)%Z) by (rewrite N2Z.inj_pow, nat_N_Z; reflexivity).
  rewrite E. destruct (N.leb_spec (2 ^ N.of_nat n) (be_value (window bits i (S n)))); lia.
Qed.

Lemma at_coord bits i n na scale : (n < 32)%nat -> coord bits i (S n) na scale =
  if (signed_at bits i (S n) =? na)%Z then None else Some (f64_div (f64_of_Z (signed_at bits i (S n))) (f64_of_Z scale)).
Proof.
  intros H. apply coord_value; [apply at_i64; lia|]. apply (small_i32 (Z.of_nat (S n))); [apply signed_fits|lia].
Qed.
Lemma at_latitude bits i : latitude_at bits i = lat_degrees (signed_at bits i 27).
Proof. unfold latitude_at. now rewrite at_coord by lia. Qed.
Lemma at_longitude bits i : longitude_at bits i = lon_degrees (signed_at bits i 28).
Proof. unfold longitude_at. now rewrite at_coord by lia. Qed.
Lemma at_coarse bits i n : (n < 32)%nat -> coord bits i (S n) 181000 600 = coarse_degrees (signed_at bits i (S n)).
Proof. intros H. now rewrite at_coord by lia. Qed.
Lemma at_sog bits i : sog_at bits i = tenths 1023 (bits_at bits i 10).
Proof. apply sog_value; [now apply at_u64; lia|apply at_fits]. Qed.
Lemma at_cog bits i : cog_at bits i = tenths 3600 (bits_at bits i 12).
Proof. apply cog_value. apply at_u64; lia. Qed.
Lemma at_heading bits i : heading_at bits i = whole 511 (bits_at bits i 9).
Proof. apply heading_value. apply at_u64; lia. Qed.
Lemma at_fix bits i : position_fix_at bits i = fix_report (bits_at bits i 4).
Proof. apply position_fix_value; [apply at_u64; lia|apply at_fits]. Qed.
Local Transparent be_value.
Lemma bit_at bits i : bits_at bits i 1 = N.b2n (flag_at bits i).
Proof. unfold bits_at, flag_at. cbn [window seq map]. unfold be_value. cbn [fold_left]. now destruct (nth i bits false). Qed.
Local Opaque be_value.
Lemma at_flag bits i : pick_flag bits i = flag_at bits i.
Proof. unfold pick_flag. rewrite at_u64, bit_at by lia. apply flag_b2n. Qed.
Lemma at_zero bits i : (pick_u64 bits i 1 =? 0) = negb (flag_at bits i).
Proof. rewrite at_u64, bit_at by lia. apply flag_b2n_0. Qed.

Lemma negb_available na v : (if negb (v =? na) then Some v else None) = available na v.
Proof. unfold available. now destruct (v =? na). Qed.
Lemma negb_whole na v : (if negb (v =? na) then Some (f64_of_Z (Z.of_N v)) else None) = whole na v.
Proof. unfold whole. now destruct (v =? na). Qed.
Lemma negb_tenths na v : (if negb (v =? na) then Some (f64_mul (f64_of_Z (Z.of_N v)) f64_0_1) else None) = tenths na v.
Proof. unfold tenths. now destruct (v =? na). Qed.

(** Texts. *)
Lemma codes_at bits i n : window_codes bits i n = map (fun k => SpecAis.bits_at bits (i + 6 * k) 6) (seq 0 n).
Proof.
  revert i. induction n as [|n IH]; intros i; [reflexivity|]. cbn [window_codes seq map].
  rewrite IH, Nat.mul_0_r, Nat.add_0_r, <- seq_shift, map_map. f_equal. apply map_ext. intros k.
  now replace (i + 6 * S k)%nat with (i + 6 + 6 * k)%nat by lia.
Qed.

Lemma code_chars_shape codes : Forall (fun k => k < 64) codes ->
  exists junk, codes = map six_code (code_chars codes) ++ junk /\ (junk = [] \/ exists j, junk = 0 :: j).
Proof.
  induction 1 as [|k codes Hk _ (junk & IH & Hj)]; [exists []; auto|]. cbn [code_chars].
  destruct (N.eqb_spec k 0) as [-> |Hz]; [exists (0 :: codes); eauto|].
  exists junk. split; [|exact Hj]. cbn [map app]. rewrite <- IH. f_equal.
  unfold six_code. destruct (N.ltb_spec k 32).
  - destruct (N.ltb_spec (64 + k) 64); lia.
  - destruct (N.ltb_spec k 64); lia.
Qed.

Lemma at_string {E} bits i n : exists t, @pick_string E bits i n = Ok t /\ text_at bits i n t.
Proof.
  rewrite pick_string_codes. eexists. split; [reflexivity|]. unfold text_at. rewrite <- codes_at.
  pose proof (window_codes_bounded bits i n) as B. set (codes := window_codes bits i n) in *.
  assert (L : List.length codes = n) by apply window_codes_length. clearbody codes.
  destruct (code_chars_encodable _ B) as (H1 & H2 & H3). destruct (code_chars_shape _ B) as (junk & Hc & Hj).
  pose proof (trim_end_spec _ H1) as (G1 & G2 & k & G3).
  split; [exact L|]. split; [exact B|]. split; [exact G1|]. split.
  { intros Hin. apply H2. rewrite G3. apply in_or_app. now left. }
  split; [exact G2|]. exists k, junk. split; [|exact Hj]. rewrite Hc at 1. rewrite G3 at 1.
  rewrite map_app, <- app_assoc. do 2 f_equal.
  clear. induction k as [|k IH]; [reflexivity|]. cbn [List.repeat map]. now rewrite IH.
Qed.

Lemma text_at_string {E} bits i n t : text_at bits i n t -> @pick_string E bits i n = Ok t.
Proof. unfold text_at. rewrite <- codes_at. apply pick_string_text. Qed.

(** ** Messages *)

Ltac in_range :=
  match goal with
  | |- fits _ (bits_at ?b ?i ?n) => exact (at_fits b i n)
  | |- fits_signed _ (signed_at ?b ?i (S ?n)) => exact (signed_fits b i n)
  end.
Ltac fields_at :=
  rewrite ?at_u8, ?at_u16, ?at_u32, ?at_i64, ?at_latitude, ?at_longitude, ?at_coarse, ?at_sog, ?at_cog, ?at_heading,
    ?at_fix, ?at_flag, ?at_zero by lia; rewrite ?at_u64 by lia.

Lemma record_1 bits st own : In (bits_at bits 0 6) [1; 2; 3] -> forall now,
  exists r, handle_t1t2t3 bits st own = Ok r /\ ais_report now bits st own r.
Proof.
  intros Ht now. eexists. split; [reflexivity|]. fields_at.
  rewrite nav_status_value, meta_value, manoeuvre_value, turn_value, direction_value
    by in_range.
  now apply report_1_2_3.
Qed.

Lemma record_6 bits st own now : bits_at bits 0 6 = 6 ->
  exists r, handle_t6 bits st own = Ok r /\ ais_report now bits st own r.
Proof. intros Ht. eexists. split; [reflexivity|]. fields_at. now apply report_6. Qed.

Lemma record_9 bits st own now : bits_at bits 0 6 = 9 ->
  exists r, handle_t9 bits st own = Ok r /\ ais_report now bits st own r.
Proof. intros Ht. eexists. split; [reflexivity|]. fields_at. rewrite !negb_available. now apply report_9. Qed.

Lemma record_10 bits st own now : bits_at bits 0 6 = 10 ->
  exists r, handle_t10 bits st own = Ok r /\ ais_report now bits st own r.
Proof. intros Ht. eexists. split; [reflexivity|]. fields_at. now apply report_10. Qed.

Lemma record_18 bits st own now : bits_at bits 0 6 = 18 ->
  exists r, handle_t18 bits st own = Ok r /\ ais_report now bits st own r.
Proof. intros Ht. eexists. split; [reflexivity|]. fields_at. now apply report_18. Qed.

Lemma record_21 bits st own now : bits_at bits 0 6 = 21 ->
  exists r, handle_t21 bits st own = Ok r /\ ais_report now bits st own r.
Proof.
  intros Ht. unfold handle_t21. destruct (@at_string ParseError bits 43 20) as (a & -> & Ha).
  destruct (@at_string ParseError bits 272 14) as (b & -> & Hb). cbn [bind].
  eexists. split; [reflexivity|]. fields_at. rewrite aid_value, fix_value by in_range. now apply report_21.
Qed.

Lemma record_27 bits st own now : bits_at bits 0 6 = 27 ->
  exists r, handle_t27 bits st own = Ok r /\ ais_report now bits st own r.
Proof.
  intros Ht. unfold handle_t27. cbv zeta. eexists. split; [reflexivity|]. fields_at.
  rewrite nav_status_value, negb_whole, negb_tenths by in_range. now apply report_27.
Qed.

Lemma record_4 bits st own now : bits_at bits 0 6 = 4 -> forall r,
  handle_t4 bits st own = Ok r <-> ais_report now bits st own r.
Proof.
  intros Ht r. unfold handle_t4. rewrite at_u64 by lia.
  rewrite (small_i32_N 14) by first [in_range|lia]. fields_at.
  assert (Y : year_in_range (Z.of_N (bits_at bits 38 14))).
  { pose proof (at_fits bits 38 14) as F. unfold fits in F. change (2 ^ N.of_nat 14) with 16384 in F. unfold year_in_range. lia. }
  match goal with |- context [@ymd_and_hms ?E ?y ?m ?d ?h ?mi ?s] =>
    destruct (@ymd_and_hms_cases E y m d h mi s) as [(-> & _ & D & T)|(-> & N)] end; cbn [bind].
  - split.
    + intros [= <-]. now apply report_4.
    + intros R. f_equal. destruct R; try (rewrite Ht in *; exfalso; cbn [In] in *; lia). reflexivity.
  - split; [discriminate|]. intros R. destruct R; try (rewrite Ht in *; exfalso; cbn [In] in *; lia). tauto.
Qed.

Lemma record_5 bits st own now : bits_at bits 0 6 = 5 -> forall r,
  handle_t5 now bits st own = Ok r <-> ais_report now bits st own r.
Proof.
  intros Ht r. unfold handle_t5. cbv zeta.
  assert (U : forall i n a b, text_at bits i n a -> text_at bits i n b -> a = b).
  { intros i n a b Ha Hb. apply (@text_at_string ParseError) in Ha, Hb. rewrite Ha in Hb. now injection Hb. }
  destruct (@at_string ParseError bits 70 7) as (a & -> & Ha).
  destruct (@at_string ParseError bits 112 20) as (b & -> & Hb).
  destruct (@at_string ParseError bits 302 20) as (c & -> & Hc). cbn [bind].
  destruct (@eta_cases ParseError bits 274 now (bits_at bits 274 4) (bits_at bits 278 5) (bits_at bits 283 5)
      (bits_at bits 288 6) (bits_at bits 294 6)) as [(eta & Ee & R)|(-> & R)]; try (apply at_u64; lia); try in_range.
  - rewrite Ee. cbn [bind]. fields_at. rewrite ship_value, cargo_value by in_range. split.
    + intros [= <-]. now apply report_5.
    + intros X. f_equal. destruct X as [? | | call name eta' dest ? H1 H2 H3 H4| | | | | |]; try (rewrite Ht in *; exfalso; cbn [In] in *; lia).
      rewrite (U _ _ _ _ Ha H1), (U _ _ _ _ Hb H2), (U _ _ _ _ Hc H3).
      assert (eta = eta') as ->; [|reflexivity].
      assert (E : @pick_eta ParseError bits 274 now = Ok eta')
        by (eapply eta_value; try exact H4; try (apply at_u64; lia); in_range).
      rewrite Ee in E. now injection E.
  - cbn [bind]. split; [discriminate|]. intros X.
    destruct X as [? | | call name eta' dest ? H1 H2 H3 H4| | | | | |]; try (rewrite Ht in *; exfalso; cbn [In] in *; lia).
    exfalso. now apply (R eta').
Qed.

Lemma ais_message now t bits st own p r : bits_at bits 0 6 <> 24 ->
  fst (dispatch_message now t bits st own p) = Ok r <-> ais_report now bits st own r.
Proof.
  intros N24.
  assert (One : forall o, (exists r, o = Ok r /\ ais_report now bits st own r) ->
    (forall a b, ais_report now bits st own a -> ais_report now bits st own b -> a = b) ->
    @eq (outcome ParseError ParsedSentence) o (Ok r) <-> ais_report now bits st own r).
  { intros o (r' & -> & R) U. split; [now intros [= <-]|]. intros R'. f_equal. now apply U. }
  pose proof (dispatch_message_case now t bits st own p) as D. rewrite at_u64 in D by lia.
  remember (bits_at bits 0 6) as ty eqn:Ety in D. symmetry in Ety.
  destruct D as [n Hn| | | | | | | | | | |n Hn]; cbn [fst].
  - apply One; [apply record_1; rewrite Ety; cbn [In]; lia|].
    intros a b [] []; try (rewrite Ety in *; exfalso; cbn [In] in *; lia); reflexivity.
  - now apply record_4.
  - now apply record_5.
  - apply One; [now apply record_6|].
    intros a b [] []; try (rewrite Ety in *; exfalso; cbn [In] in *; lia); reflexivity.
  - apply One; [now apply record_9|].
    intros a b [] []; try (rewrite Ety in *; exfalso; cbn [In] in *; lia); reflexivity.
  - apply One; [now apply record_10|].
    intros a b [] []; try (rewrite Ety in *; exfalso; cbn [In] in *; lia); reflexivity.
  - apply One; [now apply record_18|].
    intros a b [] []; try (rewrite Ety in *; exfalso; cbn [In] in *; lia); reflexivity.
  - unfold handle_t19. split; [discriminate|]. intros []; rewrite Ety in *; exfalso; cbn [In] in *; lia.
  - apply One; [now apply record_21|].
    intros a b Ra Rb. destruct Ra as [| | | | | | |n1 e1 ? A1 A2|]; try (rewrite Ety in *; exfalso; cbn [In] in *; lia).
    destruct Rb as [| | | | | | |n2 e2 ? B1 B2|]; try (rewrite Ety in *; exfalso; cbn [In] in *; lia).
    apply (@text_at_string ParseError) in A1, A2, B1, B2. rewrite A1 in B1. rewrite A2 in B2.
    injection B1 as ->. injection B2 as ->. reflexivity.
  - now destruct N24.
  - apply One; [now apply record_27|].
    intros a b [] []; try (rewrite Ety in *; exfalso; cbn [In] in *; lia); reflexivity.
  - split; [discriminate|]. intros R. exfalso. apply Hn.
    destruct R as [X|X|? ? ? ? X|X|X|X|X|? ? X|X]; rewrite Ety in X; cbn [In] in *; lia.
Qed.
