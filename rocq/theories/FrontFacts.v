(** Facts about the front part of [parse_sentence]: checksum and sentence type. *)
From Coq Require Import List NArith ZArith Bool String Lia.
From Verif Require Import Base Str F64 Chrono Types Util AisMod Vdm Gnss Parser SpecText StrFacts.
Import ListNotations.
Open Scope N_scope.

(** Checksum *)

Lemma fold_lxor_acc l a :
  fold_left (fun acc c => N.lxor acc (as_u8 c)) l a =
  N.lxor a (xor_all (map (fun c => c mod 256) l)).
Proof.
  revert a. induction l as [|c l IH]; intros a; cbn [fold_left map xor_all fold_right].
  - now rewrite N.lxor_0_r.
  - rewrite IH. unfold as_u8. now rewrite N.lxor_assoc.
Qed.

Lemma checksum_xor body : checksum body = xor_all (map (fun c => c mod 256) (tl body)).
Proof.
  unfold checksum. rewrite fold_lxor_acc, N.lxor_0_l. now destruct body.
Qed.

Lemma lxor_lt_256 a b : a < 256 -> b < 256 -> N.lxor a b < 256.
Proof.
  intros Ha Hb. destruct (N.eq_dec (N.lxor a b) 0) as [->|Hz]; [lia|].
  apply N.log2_lt_pow2 with (b := 8); [lia|].
  pose proof (N.log2_lxor a b).
  assert (N.log2 a < 8) by (destruct (N.eq_dec a 0) as [->|]; [reflexivity|apply N.log2_lt_pow2; lia]).
  assert (N.log2 b < 8) by (destruct (N.eq_dec b 0) as [->|]; [reflexivity|apply N.log2_lt_pow2; lia]).
  lia.
Qed.

Lemma xor_all_lt l : Forall (fun c => c < 256) l -> xor_all l < 256.
Proof.
  induction 1; cbn [xor_all fold_right]; [lia|]. now apply lxor_lt_256.
Qed.

Lemma mod_list_lt l : Forall (fun c => c < 256) (map (fun c => c mod 256) l).
Proof. induction l; constructor; [|assumption]. apply N.mod_lt. lia. Qed.

Lemma checksum_lt body : checksum body < 256.
Proof. rewrite checksum_xor. apply xor_all_lt, mod_list_lt. Qed.

Lemma hex_digit_spec n : n < 16 -> hex_digit n = nth (N.to_nat n) hex_alphabet 0.
Proof.
  intros H. assert (Hin : In n (map N.of_nat (seq 0 16))).
  { apply in_map_iff. exists (N.to_nat n). split; [apply N2Nat.id|]. apply in_seq. lia. }
  cbn in Hin. repeat (destruct Hin as [<-|Hin]; [reflexivity|]). destruct Hin.
Qed.

Lemma hex2_spec n : n < 256 -> hex2 n = two_hex n.
Proof.
  intros H. unfold hex2, two_hex. rewrite !hex_digit_spec; [reflexivity| |].
  - apply N.mod_lt. lia.
  - apply N.div_lt_upper_bound; lia.
Qed.

Lemma hex2_checksum body : hex2 (checksum body) = nmea_checksum body.
Proof.
  rewrite hex2_spec by apply checksum_lt. unfold nmea_checksum. now rewrite checksum_xor.
Qed.

Lemma two_hex_inj a b : a < 256 -> b < 256 -> two_hex a = two_hex b -> a = b.
Proof.
  intros Ha Hb. rewrite <- !hex2_spec by assumption. unfold hex2. intros [= H1 H2].
  assert (Hd : forall x y, hex_digit x = hex_digit y -> x = y).
  { intros x y. unfold hex_digit. destruct (N.ltb_spec x 10), (N.ltb_spec y 10); lia. }
  apply Hd in H1, H2. rewrite (N.div_mod a 16), (N.div_mod b 16) by lia. congruence.
Qed.

Lemma hex_alphabet_nth k : In (nth k hex_alphabet 0) (0 :: hex_alphabet).
Proof.
  destruct (Nat.ltb_spec k (List.length hex_alphabet)).
  - right. now apply nth_In.
  - left. now rewrite nth_overflow.
Qed.

Lemma two_hex_no_star n : ~ In 42 (two_hex n).
Proof.
  unfold two_hex. intros [H|[H|[]]].
  - pose proof (hex_alphabet_nth (N.to_nat (n / 16))) as Hi. rewrite H in Hi.
    cbn in Hi. intuition discriminate.
  - pose proof (hex_alphabet_nth (N.to_nat (n mod 16))) as Hi. rewrite H in Hi.
    cbn in Hi. intuition discriminate.
Qed.

Lemma nmea_checksum_no_star body : ~ In 42 (nmea_checksum body).
Proof. apply two_hex_no_star. Qed.

Lemma nmea_checksum_nonempty body : nmea_checksum body <> [].
Proof. discriminate. Qed.

Lemma has_body_split s body given : has_body s body given <-> split_checksum s = (body, given).
Proof.
  unfold has_body, split_checksum. split.
  - intros [(Hn & -> & ->)|(-> & Hg)].
    + apply split_last_none in Hn. now rewrite Hn.
    + change (lit "*" ++ given) with (42 :: given). now rewrite split_last_app.
  - destruct (split_last 42 s) as [[a b]|] eqn:E.
    + intros [= <- <-]. right. now apply split_last_some in E.
    + intros [= <- <-]. left. apply split_last_none in E. auto.
Qed.

Lemma has_body_total s : exists body given, has_body s body given.
Proof.
  destruct (split_checksum s) as [body given] eqn:E. exists body, given. now apply has_body_split.
Qed.

Lemma has_body_unique s b g b' g' : has_body s b g -> has_body s b' g' -> b = b' /\ g = g'.
Proof. rewrite !has_body_split. intros -> [= -> ->]. auto. Qed.

Lemma parse_sentence_ok ovf now s p body given :
  has_body s body given -> checksum_ok body given ->
  parse_sentence ovf now s p = parse_body ovf now body p.
Proof.
  intros Hb Hc. apply has_body_split in Hb. unfold parse_sentence. rewrite Hb, hex2_checksum.
  destruct Hc as [-> | ->].
  - rewrite (str_eqb_refl []). cbn [negb]. now rewrite andb_false_r.
  - now rewrite str_eqb_refl.
Qed.

Lemma parse_sentence_bad ovf now s p body given :
  has_body s body given -> ~ checksum_ok body given ->
  parse_sentence ovf now s p = (Err (CorruptedSentence (nmea_checksum body) given), p).
Proof.
  intros Hb Hc. apply has_body_split in Hb. unfold parse_sentence. rewrite Hb, hex2_checksum.
  unfold checksum_ok in Hc.
  destruct (str_eqb_spec (nmea_checksum body) given) as [<-|H1]; [tauto|].
  destruct (str_eqb_spec given []) as [->|H2]; [tauto|]. reflexivity.
Qed.

Lemma checksum_ok_dec body given : {checksum_ok body given} + {~ checksum_ok body given}.
Proof.
  unfold checksum_ok. destruct (str_eqb_spec given []); [left; tauto|].
  destruct (str_eqb_spec given (nmea_checksum body)); [left|right]; tauto.
Qed.

Lemma check_sentence s fields :
  (let '(body, given) := split_checksum s in
   (str_eqb given [] || str_eqb given (nmea_checksum body)) = true /\ split_on 44 body = fields) ->
  sentence s fields.
Proof.
  destruct (split_checksum s) as [body given] eqn:E. intros [Hc Hf]. exists body, given.
  split; [now apply has_body_split|]. split.
  - apply orb_true_iff in Hc as [Hc|Hc]; apply str_eqb_eq in Hc; [now left|now right].
  - now apply has_fields_split.
Qed.

(** Sentence type *)

(** Both recognition steps of [parse_body] together. *)
Definition parse_type (t0 : str) : option (option NavigationSystem * option Station * str) :=
  match recognize (lit "$") nav_of_talker t0 with
  | None => None
  | Some (nav, t1) =>
    match recognize (lit "!") station_of_talker t1 with
    | None => None
    | Some (station, t2) => Some (nav, station, t2)
    end
  end.

Lemma parse_body_type ovf now body p :
  parse_body ovf now body p =
  match before_first 44 body with
  | None => (Err (InvalidSentence (lit "Invalid NMEA sentence: " ++ body)), p)
  | Some t0 =>
    match parse_type t0 with
    | None => (Panic, p)
    | Some (nav, station, t2) => dispatch_sentence ovf now t2 body nav station p
    end
  end.
Proof.
  unfold parse_body, parse_type. destruct (before_first 44 body) as [t0|]; [|reflexivity].
  destruct (recognize (lit "$") nav_of_talker t0) as [[nav t1]|]; [|reflexivity].
  destruct (recognize (lit "!") station_of_talker t1) as [[st t2]|]; reflexivity.
Qed.

Inductive recognized : str -> option NavigationSystem -> option Station -> str -> Prop :=
| RGnss tt fff : byte_len tt = 2%nat -> byte_len fff = 3%nat ->
    recognized (lit "$" ++ tt ++ fff) (Some (nav_of_talker tt)) None (lit "$" ++ fff)
| RAis tt fff : byte_len tt = 2%nat -> byte_len fff = 3%nat ->
    recognized (lit "!" ++ tt ++ fff) None (Some (station_of_talker tt)) (lit "!" ++ fff)
| RLongGnss tt more : byte_len tt = 2%nat -> (3 < byte_len more)%nat ->
    recognized (lit "$" ++ tt ++ more) (Some (nav_of_talker tt)) None (lit "$" ++ tt ++ more)
| RLongAis tt more : byte_len tt = 2%nat -> (3 < byte_len more)%nat ->
    recognized (lit "!" ++ tt ++ more) None (Some (station_of_talker tt)) (lit "!" ++ tt ++ more)
| ROther c r : c < 128 -> c <> 36 -> c <> 33 -> recognized (c :: r) None None (c :: r).

Lemma slice01 c r : c < 128 -> slice (c :: r) 0 1 = Some [c].
Proof.
  intros H. apply slice_some; [lia|]. exists [], r. repeat split.
  cbn [byte_len]. unfold utf8_len. apply N.ltb_lt in H. rewrite H. reflexivity.
Qed.

Lemma slice01_inv t m : slice t 0 1 = Some m -> exists c r, t = c :: r /\ m = [c] /\ c < 128.
Proof.
  intros H. apply slice_some in H; [|lia]. destruct H as (a & r & -> & Ha & Hm).
  apply byte_len_nil in Ha. subst a. destruct m as [|c m]; [discriminate|].
  cbn [byte_len] in Hm. assert (Hc : c < 128 /\ m = []).
  { revert Hm. unfold utf8_len. destruct (N.ltb_spec c 128).
    - intros Hm. split; [assumption|]. apply byte_len_nil. lia.
    - destruct (c <? 2048), (c <? 65536); lia. }
  destruct Hc as [Hc ->]. exists c, r. auto.
Qed.

Lemma slice13 m tt r : m < 128 -> byte_len tt = 2%nat -> slice (m :: tt ++ r) 1 3 = Some tt.
Proof.
  intros Hm H. apply slice_some; [lia|]. exists [m], r. repeat split; [|lia].
  cbn [byte_len]. unfold utf8_len. apply N.ltb_lt in Hm. rewrite Hm. reflexivity.
Qed.

Lemma slice36 m tt r : m < 128 -> byte_len tt = 2%nat -> byte_len r = 3%nat ->
  slice (m :: tt ++ r) 3 6 = Some r.
Proof.
  intros Hm H Hr. apply slice_some; [lia|]. exists (m :: tt), []. rewrite app_nil_r.
  repeat split; [|lia].
  cbn [byte_len]. unfold utf8_len. apply N.ltb_lt in Hm. rewrite Hm. lia.
Qed.

Lemma byte_len_mark m r : m < 128 -> byte_len (m :: r) = S (byte_len r).
Proof.
  intros Hm. cbn [byte_len]. unfold utf8_len. apply N.ltb_lt in Hm. now rewrite Hm.
Qed.

Lemma recognize_short {A} m (f : str -> A) tt fff :
  m < 128 -> byte_len tt = 2%nat -> byte_len fff = 3%nat ->
  recognize [m] f (m :: tt ++ fff) = Some (Some (f tt), m :: fff).
Proof.
  intros Hm Ht Hf. unfold recognize. rewrite slice01, str_eqb_refl, slice13, slice36 by assumption.
  rewrite byte_len_mark, byte_len_app by assumption.
  replace (Nat.leb _ 6) with true; [reflexivity|]. symmetry. apply Nat.leb_le. lia.
Qed.

Lemma recognize_long {A} m (f : str -> A) tt more :
  m < 128 -> byte_len tt = 2%nat -> (3 < byte_len more)%nat ->
  recognize [m] f (m :: tt ++ more) = Some (Some (f tt), m :: tt ++ more).
Proof.
  intros Hm Ht Hf. unfold recognize. rewrite slice01, str_eqb_refl, slice13 by assumption.
  rewrite byte_len_mark, byte_len_app by assumption.
  replace (Nat.leb _ 6) with false; [reflexivity|]. symmetry. apply Nat.leb_gt. lia.
Qed.

Lemma recognize_other {A} m (f : str -> A) c r :
  c < 128 -> c <> m -> recognize [m] f (c :: r) = Some (None, c :: r).
Proof.
  intros Hc Hn. unfold recognize. rewrite slice01 by assumption.
  destruct (str_eqb_spec [c] [m]) as [[=]|_]; [congruence|reflexivity].
Qed.

Lemma recognize_inv {A} m (f : str -> A) t r t' :
  m < 128 ->
  recognize [m] f t = Some (r, t') ->
  (exists tt fff, byte_len tt = 2%nat /\ byte_len fff = 3%nat /\ t = m :: tt ++ fff /\
     r = Some (f tt) /\ t' = m :: fff) \/
  (exists tt more, byte_len tt = 2%nat /\ (3 < byte_len more)%nat /\ t = m :: tt ++ more /\
     r = Some (f tt) /\ t' = t) \/
  (exists c u, c < 128 /\ c <> m /\ t = c :: u /\ r = None /\ t' = t).
Proof.
  intros Hm. unfold recognize. destruct (slice t 0 1) as [m'|] eqn:E; [|discriminate].
  apply slice01_inv in E as (c & u & -> & -> & Hc).
  destruct (str_eqb_spec [c] [m]) as [[= ->]|Hn].
  2:{ intros [= <- <-]. right; right. exists c, u. repeat split; auto. congruence. }
  destruct (slice (m :: u) 1 3) as [tt|] eqn:E; [|discriminate].
  apply slice_some in E; [|lia]. destruct E as (a & w & Hu & Ha & Ht).
  assert (a = [m]).
  { destruct a as [|m' a]; [discriminate|]. injection Hu as <- ->.
    rewrite byte_len_mark in Ha by assumption. f_equal. apply byte_len_nil. lia. }
  subst a. injection Hu as ->. cbn [Nat.sub] in Ht.
  rewrite byte_len_mark, byte_len_app by assumption.
  destruct (Nat.leb_spec (S (byte_len tt + byte_len w)) 6) as [Hl|Hl].
  - destruct (slice (m :: tt ++ w) 3 6) as [fff|] eqn:E; [|discriminate].
    apply slice_some in E; [|lia]. destruct E as (a & z & Hu & Ha' & Hf).
    intros [= <- <-]. left. exists tt, fff. cbn [Nat.sub] in Hf. split; [assumption|].
    split; [assumption|].
    assert (Hb : byte_len (m :: tt ++ w) = byte_len (a ++ fff ++ z)) by now rewrite Hu.
    rewrite byte_len_mark, !byte_len_app in Hb by assumption.
    assert (z = []) by (apply byte_len_nil; lia). subst z. rewrite app_nil_r in Hu.
    assert (a = m :: tt).
    { assert (E1 : take_bytes (m :: tt ++ w) 3 = Some (m :: tt)).
      { apply take_bytes_some. split; [rewrite byte_len_mark by assumption; lia|]. now exists w. }
      assert (E2 : take_bytes (m :: tt ++ w) 3 = Some a).
      { apply take_bytes_some. split; [assumption|]. now exists fff. }
      congruence. }
    subst a. cbn [app] in Hu. auto.
  - intros [= <- <-]. right; left. exists tt, w. repeat split; auto. lia.
Qed.

Lemma parse_type_recognized t nav st t2 :
  parse_type t = Some (nav, st, t2) <-> recognized t nav st t2.
Proof.
  split.
  - unfold parse_type.
    destruct (recognize (lit "$") nav_of_talker t) as [[nav' t1]|] eqn:E1; [|discriminate].
    destruct (recognize (lit "!") station_of_talker t1) as [[st' t2']|] eqn:E2; [|discriminate].
    intros [= <- <- <-].
    apply (recognize_inv 36) in E1; [|lia]. apply (recognize_inv 33) in E2; [|lia].
    destruct E1 as [(tt & fff & Ht & Hf & -> & -> & ->)
                   |[(tt & more & Ht & Hf & -> & -> & ->)|(c & u & Hc & Hn & -> & -> & ->)]];
    destruct E2 as [(tt' & fff' & Ht' & Hf' & H1 & -> & ->)
                   |[(tt' & more' & Ht' & Hf' & H1 & -> & ->)|(c' & u' & Hc' & Hn' & H1 & -> & ->)]];
    try discriminate.
    + now apply RGnss.
    + now apply RLongGnss.
    + rewrite H1. now apply RAis.
    + rewrite H1. now apply RLongAis.
    + injection H1 as <- <-. now apply ROther.
  - unfold parse_type.
    destruct 1 as [tt fff Ht Hf|tt fff Ht Hf|tt more Ht Hf|tt more Ht Hf|c r Hc H1 H2].
    + change (lit "$" ++ tt ++ fff) with (36 :: tt ++ fff).
      rewrite (recognize_short 36) by (assumption || lia).
      rewrite (recognize_other 33) by lia. reflexivity.
    + change (lit "!" ++ tt ++ fff) with (33 :: tt ++ fff).
      rewrite (recognize_other 36) by lia.
      rewrite (recognize_short 33) by (assumption || lia). reflexivity.
    + change (lit "$" ++ tt ++ more) with (36 :: tt ++ more).
      rewrite (recognize_long 36) by (assumption || lia).
      rewrite (recognize_other 33) by lia. reflexivity.
    + change (lit "!" ++ tt ++ more) with (33 :: tt ++ more).
      rewrite (recognize_other 36) by lia.
      rewrite (recognize_long 33) by (assumption || lia). reflexivity.
    + rewrite (recognize_other 36), (recognize_other 33) by assumption. reflexivity.
Qed.

(** A recognised type that is one of the crate's has the short form. *)
Lemma recognized_gnss t nav st fff :
  recognized t nav st (lit "$" ++ fff) -> byte_len fff = 3%nat ->
  exists tt, byte_len tt = 2%nat /\ t = lit "$" ++ tt ++ fff /\ nav = Some (nav_of_talker tt) /\ st = None.
Proof.
  intros H Hf. inversion H as [tt f Ht Hf' | | tt more Ht Hl | | c r Hc H1 H2]; subst.
  - exists tt. auto.
  - rewrite byte_len_app in Hf. lia.
  - exfalso. (apply H1; reflexivity) || (apply H2; reflexivity).
Qed.

Lemma recognized_ais t nav st fff :
  recognized t nav st (lit "!" ++ fff) -> byte_len fff = 3%nat ->
  exists tt, byte_len tt = 2%nat /\ t = lit "!" ++ tt ++ fff /\ nav = None /\
    st = Some (station_of_talker tt).
Proof.
  intros H Hf. inversion H as [ | tt f Ht Hf' | | tt more Ht Hl | c r Hc H1 H2]; subst.
  - exists tt. auto.
  - rewrite byte_len_app in Hf. lia.
  - exfalso. (apply H1; reflexivity) || (apply H2; reflexivity).
Qed.
