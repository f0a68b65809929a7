(** Facts about bit vectors, armoring, integer and text fields. *)
From Coq Require Import List NArith ZArith Bool String Lia.
From Verif Require Import Base Str F64 Chrono Types Util SpecText SpecAis StrFacts.
Import ListNotations.
Open Scope N_scope.

(** ** Values of bit lists *)

Definition be_from (acc : N) (l : list bool) : N := fold_left (fun v b => 2 * v + N.b2n b) l acc.

Lemma be_from_acc acc l : be_from acc l = acc * 2 ^ N.of_nat (List.length l) + be_value l.
Proof.
  revert acc. induction l as [|b l IH]; intros acc.
  - cbn [be_from fold_left List.length]. change (be_value []) with 0. rewrite N.pow_0_r. lia.
  - change (be_from acc (b :: l)) with (be_from (2 * acc + N.b2n b) l).
    change (be_value (b :: l)) with (be_from (N.b2n b) l).
    rewrite !IH. cbn [List.length]. rewrite Nat2N.inj_succ, N.pow_succ_r'. lia.
Qed.

Lemma be_value_cons b l : be_value (b :: l) = N.b2n b * 2 ^ N.of_nat (List.length l) + be_value l.
Proof. change (be_value (b :: l)) with (be_from (N.b2n b) l). apply be_from_acc. Qed.

Lemma be_value_app a b : be_value (a ++ b) = be_value a * 2 ^ N.of_nat (List.length b) + be_value b.
Proof.
  unfold be_value at 1. rewrite fold_left_app. apply be_from_acc.
Qed.

Lemma be_value_lt l : be_value l < 2 ^ N.of_nat (List.length l).
Proof.
  induction l as [|b l IH]; [cbn; lia|]. rewrite be_value_cons. cbn [List.length].
  rewrite Nat2N.inj_succ, N.pow_succ_r'. destruct b; cbn [N.b2n]; lia.
Qed.

Lemma be_bits_length w v : List.length (be_bits w v) = w.
Proof. induction w; cbn [be_bits List.length]; congruence. Qed.

Lemma be_value_bits w v : be_value (be_bits w v) = v mod 2 ^ N.of_nat w.
Proof.
  induction w as [|w IH].
  - cbn [be_bits]. change (N.of_nat 0) with 0. rewrite N.pow_0_r, N.mod_1_r. reflexivity.
  - cbn [be_bits]. rewrite be_value_cons, be_bits_length, IH, Nat2N.inj_succ, N.pow_succ_r'.
    rewrite (N.mul_comm 2), N.mod_mul_r by (try apply N.pow_nonzero; lia).
    rewrite <- N.testbit_spec'. lia.
Qed.

Lemma be_value_inj a b : List.length a = List.length b -> be_value a = be_value b -> a = b.
Proof.
  revert b. induction a as [|x a IH]; destruct b as [|y b]; cbn [List.length]; intros Hl Hv;
    try discriminate; [reflexivity|].
  injection Hl as Hl. rewrite !be_value_cons, Hl in Hv.
  pose proof (be_value_lt a). pose proof (be_value_lt b). rewrite Hl in *.
  destruct x, y; cbn [N.b2n] in Hv; try lia; f_equal; apply IH; lia.
Qed.

Lemma app_inj_len {A} (a b c d : list A) :
  a ++ b = c ++ d -> List.length a = List.length c -> a = c /\ b = d.
Proof.
  revert c. induction a as [|x a IH]; destruct c as [|y c]; cbn; intros H Hl; try discriminate; [auto|].
  injection H as -> H. injection Hl as Hl. destruct (IH _ H Hl) as [-> ->]. auto.
Qed.

(** ** Windows *)

Lemma window_length bv i n : List.length (window bv i n) = n.
Proof. unfold window. now rewrite map_length, seq_length. Qed.

Lemma window_succ bv i n : window bv i (S n) = nth i bv false :: window bv (S i) n.
Proof. reflexivity. Qed.

Lemma window_split bv i n m : window bv i (n + m) = window bv i n ++ window bv (i + n) m.
Proof. unfold window. now rewrite seq_app, map_app. Qed.

Definition same_bits (a b : list bool) : Prop := forall i, nth i a false = nth i b false.

Lemma same_bits_window a b i n : same_bits a b -> window a i n = window b i n.
Proof. intros H. unfold window. apply map_ext. intros k. apply H. Qed.

Lemma same_bits_zeros a n : same_bits (a ++ repeat false n) a.
Proof.
  intros i. destruct (Nat.ltb_spec i (List.length a)).
  - now rewrite app_nth1.
  - rewrite app_nth2 by lia. rewrite (nth_overflow a) by lia.
    generalize (i - List.length a)%nat. clear. induction n as [|n IH]; intros [|k]; cbn; auto.
Qed.

Lemma window_app_l a b i n : (i + n <= List.length a)%nat -> window (a ++ b) i n = window a i n.
Proof.
  intros H. unfold window. apply map_ext_in. intros k Hk. apply in_seq in Hk.
  apply app_nth1. lia.
Qed.

Lemma window_app_r a b i n : window (a ++ b) (List.length a + i) n = window b i n.
Proof.
  revert i. induction n as [|n IH]; intros i; [reflexivity|].
  rewrite !window_succ. rewrite app_nth2 by lia. f_equal.
  - f_equal. lia.
  - rewrite <- Nat.add_succ_r. apply IH.
Qed.

Lemma window_all a : window a 0 (List.length a) = a.
Proof.
  induction a as [|x a IH]; [reflexivity|]. cbn [List.length]. rewrite window_succ. cbn [nth].
  f_equal. etransitivity; [|exact IH]. apply (window_app_r [x] a 0).
Qed.

Lemma window_middle a m b : window (a ++ m ++ b) (List.length a) (List.length m) = m.
Proof.
  rewrite <- (Nat.add_0_r (List.length a)), window_app_r, window_app_l by lia. apply window_all.
Qed.

Lemma layout_window l k w bits i rest :
  Forall (fun f => List.length (snd f) = fst f) l ->
  nth_error l k = Some (w, bits) -> list_sum (map fst (firstn k l)) = i ->
  window (layout_bits l ++ rest) i w = bits.
Proof.
  intros Hl Hk <-. apply nth_error_split in Hk as (l1 & l2 & -> & <-).
  rewrite firstn_app, Nat.sub_diag, firstn_O, app_nil_r, firstn_all.
  unfold layout_bits. rewrite flat_map_app. cbn [flat_map snd].
  apply Forall_app in Hl as [H1 H2]. inversion H2 as [|x xs Hw _]; subst. cbn [fst snd] in Hw.
  assert (E : list_sum (map fst l1) = List.length (flat_map snd l1)).
  { clear - H1. induction H1 as [|[w b] l H _ IH]; [reflexivity|].
    cbn [map flat_map fst snd list_sum fold_right] in *. rewrite app_length.
    unfold list_sum in IH. rewrite IH. now rewrite H. }
  rewrite E, <- !app_assoc. rewrite <- Hw. apply window_middle.
Qed.

(** ** Reading integers *)

Lemma pick_loop_spec bv pos len res :
  res < 2 ^ (64 - N.of_nat len) -> (len <= 64)%nat ->
  pick_loop bv pos len res = be_from res (window bv pos len).
Proof.
  revert pos res. induction len as [|len IH]; intros pos res Hr Hl; [reflexivity|].
  cbn [pick_loop]. rewrite window_succ. cbn [be_from fold_left].
  assert (E : N.lor (N.shiftl res 1 mod 18446744073709551616) (N.b2n (nth pos bv false))
              = 2 * res + N.b2n (nth pos bv false)).
  { assert (Hb : 2 * res < 18446744073709551616).
    { change 18446744073709551616 with (2 * 2 ^ 63). apply N.mul_lt_mono_pos_l; [lia|].
      eapply N.lt_le_trans; [exact Hr|]. apply N.pow_le_mono_r; lia. }
    rewrite N.shiftl_mul_pow2, N.pow_1_r, N.mul_comm. rewrite N.mod_small by exact Hb.
    destruct (nth pos bv false); cbn [N.b2n].
    - replace (2 * res + 1) with (N.succ_double res) by (rewrite N.succ_double_spec; lia).
      replace (2 * res) with (N.double res) by (rewrite N.double_spec; lia).
      destruct res; reflexivity.
    - rewrite N.lor_0_r. lia. }
  rewrite E. apply IH; [|lia].
  replace (64 - N.of_nat len) with (N.succ (64 - N.of_nat (S len))) by lia.
  rewrite N.pow_succ_r'. destruct (nth pos bv false); cbn [N.b2n]; lia.
Qed.

Lemma pick_u64_spec bv i n : (n <= 64)%nat -> pick_u64 bv i n = be_value (window bv i n).
Proof.
  intros H. unfold pick_u64. rewrite pick_loop_spec; [reflexivity| |exact H].
  apply N.neq_0_lt_0, N.pow_nonzero. lia.
Qed.

Lemma testbit_top x n : x < 2 ^ N.succ n -> N.testbit x n = (2 ^ n <=? x).
Proof.
  intros H. rewrite N.pow_succ_r' in H.
  assert (Hp : 0 < 2 ^ n) by (apply N.neq_0_lt_0, N.pow_nonzero; lia).
  rewrite N.testbit_eqb. destruct (N.leb_spec (2 ^ n) x) as [Hx|Hx].
  - replace (x / 2 ^ n) with 1; [reflexivity|].
    apply N.div_unique with (r := x - 2 ^ n); lia.
  - rewrite N.div_small by exact Hx. reflexivity.
Qed.

Lemma signed_value_of l n :
  List.length l = S n ->
  signed_value l = if 2 ^ N.of_nat n <=? be_value l
                   then (Z.of_N (be_value l) - 2 ^ Z.of_nat (S n))%Z else Z.of_N (be_value l).
Proof.
  destruct l as [|b l]; [discriminate|]. intros Hl. unfold signed_value. rewrite Hl.
  injection Hl as Hl. rewrite be_value_cons, Hl. pose proof (be_value_lt l) as Hlt. rewrite Hl in Hlt.
  destruct b; cbn [N.b2n].
  - destruct (N.leb_spec (2 ^ N.of_nat n) (1 * 2 ^ N.of_nat n + be_value l)); [reflexivity|lia].
  - destruct (N.leb_spec (2 ^ N.of_nat n) (0 * 2 ^ N.of_nat n + be_value l)); [lia|reflexivity].
Qed.

Lemma pick_i64_spec bv i n : (n < 64)%nat -> pick_i64 bv i (S n) = signed_value (window bv i (S n)).
Proof.
  intros H. unfold pick_i64.
  change (pick_loop bv i (S n) 0) with (pick_u64 bv i (S n)). rewrite pick_u64_spec by lia.
  rewrite (signed_value_of _ n) by apply window_length.
  pose proof (be_value_lt (window bv i (S n))) as Hlt. rewrite window_length in Hlt.
  set (x := be_value (window bv i (S n))) in *. clearbody x.
  replace (N.of_nat (S n) - 1) with (N.of_nat n) by lia.
  rewrite N.shiftl_1_l. rewrite Nat2N.inj_succ in Hlt.
  pose proof (testbit_top x (N.of_nat n) Hlt) as Ht.
  assert (Hp : 0 < 2 ^ N.of_nat n) by (apply N.neq_0_lt_0, N.pow_nonzero; lia).
  assert (E1 : negb (N.land x (2 ^ N.of_nat n) =? 0) = N.testbit x (N.of_nat n)).
  { destruct (N.testbit x (N.of_nat n)) eqn:Eb.
    - destruct (N.eqb_spec (N.land x (2 ^ N.of_nat n)) 0) as [E|_]; [|reflexivity].
      assert (N.testbit (N.land x (2 ^ N.of_nat n)) (N.of_nat n) = true)
        by now rewrite N.land_spec, Eb, N.pow2_bits_true.
      rewrite E, N.bits_0 in H0. discriminate.
    - replace (N.land x (2 ^ N.of_nat n)) with 0; [reflexivity|]. symmetry. apply N.bits_inj_0.
      intros k. rewrite N.land_spec. destruct (N.eq_dec k (N.of_nat n)) as [->|Hk].
      + now rewrite Eb.
      + rewrite N.pow2_bits_false by congruence. apply andb_false_r. }
  rewrite E1, Ht. destruct (N.leb_spec (2 ^ N.of_nat n) x) as [Hx|Hx]; [|reflexivity].
  rewrite <- N.pred_sub, <- N.ones_equiv, N.land_ones.
  assert (E2 : x mod 2 ^ N.of_nat n = x - 2 ^ N.of_nat n).
  { symmetry. apply N.mod_unique with (q := 1); [|lia]. rewrite N.pow_succ_r' in Hlt. lia. }
  rewrite E2, N2Z.inj_sub by exact Hx. rewrite N2Z.inj_pow, nat_N_Z.
  rewrite Nat2Z.inj_succ, Z.pow_succ_r by lia. change (Z.of_N 2) with 2%Z. lia.
Qed.

Lemma be_value_fits w v : fits (N.of_nat w) v -> be_value (be_bits w v) = v.
Proof. intros H. rewrite be_value_bits. now apply N.mod_small. Qed.

Lemma signed_value_twos w z :
  fits_signed (Z.of_nat (S w)) z -> signed_value (be_bits (S w) (twos (S w) z)) = z.
Proof.
  unfold fits_signed. intros H. rewrite (signed_value_of _ w) by apply be_bits_length.
  replace (Z.of_nat (S w) - 1)%Z with (Z.of_nat w) in H by lia.
  assert (Hp : (0 < 2 ^ Z.of_nat w)%Z) by (apply Z.pow_pos_nonneg; lia).
  assert (Hs : (2 ^ Z.of_nat (S w) = 2 * 2 ^ Z.of_nat w)%Z)
    by (rewrite Nat2Z.inj_succ, Z.pow_succ_r by lia; reflexivity).
  pose proof (Z.mod_pos_bound z (2 ^ Z.of_nat (S w)) ltac:(lia)) as Hm.
  assert (E : be_value (be_bits (S w) (twos (S w) z)) = twos (S w) z).
  { rewrite be_value_bits. apply N.mod_small. unfold twos. apply N2Z.inj_lt.
    rewrite Z2N.id, N2Z.inj_pow, nat_N_Z by lia. exact (proj2 Hm). }
  rewrite E. unfold twos.
  destruct (N.leb_spec (2 ^ N.of_nat w) (Z.to_N (z mod 2 ^ Z.of_nat (S w)))) as [Hl|Hl].
  - apply N2Z.inj_le in Hl. rewrite Z2N.id, N2Z.inj_pow, nat_N_Z in Hl by lia.
    change (Z.of_N 2) with 2%Z in Hl. rewrite Z2N.id by lia.
    destruct (Z.ltb_spec z 0) as [Hz|Hz].
    + rewrite <- (Z.mod_unique_pos z (2 ^ Z.of_nat (S w)) (-1) (z + 2 ^ Z.of_nat (S w))) by lia. lia.
    + rewrite Z.mod_small in Hl by lia. lia.
  - apply N2Z.inj_lt in Hl. rewrite Z2N.id, N2Z.inj_pow, nat_N_Z in Hl by lia.
    change (Z.of_N 2) with 2%Z in Hl. rewrite Z2N.id by lia.
    destruct (Z.ltb_spec z 0) as [Hz|Hz].
    + rewrite <- (Z.mod_unique_pos z (2 ^ Z.of_nat (S w)) (-1) (z + 2 ^ Z.of_nat (S w))) in Hl by lia. lia.
    + rewrite Z.mod_small by lia. reflexivity.
Qed.

(** ** Armoring *)

Lemma six_bits_armor ovf b0 b1 b2 b3 b4 b5 :
  exists ci, payload_char ovf (armor_char [b0; b1; b2; b3; b4; b5]) = Some ci /\
    six_bits ci = [b0; b1; b2; b3; b4; b5].
Proof.
  destruct ovf, b0, b1, b2, b3, b4, b5; eexists; split; vm_compute; reflexivity.
Qed.

Lemma list6_ind (P : list bool -> Prop) :
  P [] ->
  (forall l, (0 < List.length l < 6)%nat -> P l) ->
  (forall b0 b1 b2 b3 b4 b5 l, P l -> P (b0 :: b1 :: b2 :: b3 :: b4 :: b5 :: l)) ->
  forall l, P l.
Proof.
  intros H0 H1 H6 l.
  assert (H : forall n l, (List.length l <= n)%nat -> P l).
  { clear l. induction n as [|n IH]; intros l Hl.
    - destruct l; [assumption|cbn in Hl; lia].
    - destruct l as [|b0 [|b1 [|b2 [|b3 [|b4 [|b5 l]]]]]];
        try (apply H1; cbn [List.length]; lia); [assumption|].
      apply H6, IH. cbn [List.length] in Hl. lia. }
  eapply H. reflexivity.
Qed.

Lemma parse_payload_armor ovf bits :
  exists k, (k < 6)%nat /\ (Nat.divide 6 (List.length bits) -> k = 0%nat) /\
    parse_payload ovf (armor bits) = Ok (bits ++ repeat false k).
Proof.
  induction bits as [|l Hl|b0 b1 b2 b3 b4 b5 l (k & Hk & Hd & IH)] using list6_ind.
  - exists 0%nat. repeat split; lia.
  - exists (6 - List.length l)%nat. split; [lia|]. split.
    + intros [q Hq]. lia.
    + destruct l as [|b0 [|b1 [|b2 [|b3 [|b4 [|b5 l]]]]]]; cbn [List.length] in Hl; try lia;
        cbn [armor firstn app repeat parse_payload List.length Nat.sub];
        match goal with |- context [payload_char ovf (armor_char [?a; ?b; ?c; ?d; ?e; ?f])] =>
          destruct (six_bits_armor ovf a b c d e f) as (ci & Hc & Hs); rewrite Hc, Hs end;
        reflexivity.
  - exists k. split; [assumption|]. split.
    + intros [q Hq]. apply Hd. exists (q - 1)%nat. cbn [List.length] in Hq. lia.
    + cbn [armor parse_payload].
      destruct (six_bits_armor ovf b0 b1 b2 b3 b4 b5) as (ci & Hc & Hs). rewrite Hc, IH, Hs.
      reflexivity.
Qed.

Lemma armor_alphabet_nodup : NoDup armor_alphabet.
Proof.
  assert (H : forall l : list N, (fix nd l := match l with [] => true | x :: r =>
             negb (existsb (N.eqb x) r) && nd r end) l = true -> NoDup l).
  { induction l as [|x r IH]; [constructor|]. intros Hb. apply andb_true_iff in Hb as [Hx Hr].
    constructor; [|auto]. intros Hin. apply negb_true_iff in Hx.
    assert (existsb (N.eqb x) r = true) by (apply existsb_exists; exists x; split; [assumption|apply N.eqb_refl]).
    congruence. }
  apply H. vm_compute. reflexivity.
Qed.

(** Position of a character in the alphabet. *)
Lemma armor_alphabet_char c : In c armor_alphabet ->
  exists bits, List.length bits = 6%nat /\ c = armor_char bits.
Proof.
  intros H. apply (In_nth _ _ 0) in H as (k & Hk & <-).
  exists (be_bits 6 (N.of_nat k)). split; [apply be_bits_length|].
  unfold armor_char. rewrite be_value_fits; [now rewrite Nat2N.id|].
  change (List.length armor_alphabet) with 64%nat in Hk. unfold fits. cbn. lia.
Qed.

Lemma armor_char_in bits : List.length bits = 6%nat -> In (armor_char bits) armor_alphabet.
Proof.
  intros H. apply nth_In. pose proof (be_value_lt bits) as Hl. rewrite H in Hl.
  change (2 ^ N.of_nat 6) with 64 in Hl. change (List.length armor_alphabet) with 64%nat. lia.
Qed.

Lemma armored_is_armor s : armored s ->
  exists bits, List.length bits = (6 * List.length s)%nat /\ s = armor bits.
Proof.
  induction 1 as [|c s Hc _ (bits & Hl & ->)].
  - now exists [].
  - apply armor_alphabet_char in Hc as (b & Hb & ->).
    destruct b as [|b0 [|b1 [|b2 [|b3 [|b4 [|b5 [|b6 b]]]]]]]; try discriminate.
    exists (b0 :: b1 :: b2 :: b3 :: b4 :: b5 :: bits). cbn [List.length armor]. split; [lia|reflexivity].
Qed.

Lemma armor_plain bits : plain (armor bits).
Proof.
  induction bits as [|l Hl|b0 b1 b2 b3 b4 b5 l IH] using list6_ind.
  - intros [].
  - destruct l as [|b0 [|b1 [|b2 [|b3 [|b4 [|b5 l]]]]]]; cbn [List.length] in Hl; try lia;
      cbn [armor firstn app repeat]; intros [H|[]]; revert H;
      match goal with |- armor_char ?l = _ -> _ => pose proof (armor_char_in l eq_refl) as Hi end;
      intros H; rewrite H in Hi; vm_compute in Hi; intuition discriminate.
  - cbn [armor]. intros [H|H]; [|now apply IH].
    pose proof (armor_char_in [b0; b1; b2; b3; b4; b5] eq_refl) as Hi.
    rewrite H in Hi; vm_compute in Hi; intuition discriminate.
Qed.

(** ** Text *)

Lemma pick_chars_spec bv i n :
  pick_chars bv i n =
  (fix go (i n : nat) := match n with
   | O => Some []
   | S n' => let k := be_value (window bv i 6) in
     if k =? 0 then Some []
     else option_map (cons (if k <? 32 then 64 + k else k)) (go (i + 6)%nat n')
   end) i n.
Proof.
  revert i. induction n as [|n IH]; intros i; [reflexivity|].
  cbn [pick_chars]. rewrite pick_u64_spec by lia.
  pose proof (be_value_lt (window bv i 6)) as Hl. rewrite window_length in Hl.
  change (2 ^ N.of_nat 6) with 64 in Hl. unfold as_u32.
  rewrite N.mod_small by lia. apply N.ltb_lt in Hl. cbv zeta. rewrite Hl, IH. reflexivity.
Qed.

(** Text characters of six-bit codes, up to the first zero. *)
Fixpoint code_chars (codes : list N) : str :=
  match codes with
  | [] => []
  | k :: r => if k =? 0 then [] else (if k <? 32 then 64 + k else k) :: code_chars r
  end.

(** The codes of a field. *)
Fixpoint window_codes (bv : list bool) (i n : nat) : list N :=
  match n with
  | O => []
  | S n' => be_value (window bv i 6) :: window_codes bv (i + 6) n'
  end.

Lemma pick_chars_codes bv i n : pick_chars bv i n = Some (code_chars (window_codes bv i n)).
Proof.
  rewrite pick_chars_spec. revert i. induction n as [|n IH]; intros i; [reflexivity|].
  cbn [window_codes code_chars]. rewrite IH. cbv zeta.
  destruct (be_value (window bv i 6) =? 0); reflexivity.
Qed.

Lemma pick_string_codes {E} bv i n :
  @pick_string E bv i n = Ok (trim_end (code_chars (window_codes bv i n))).
Proof. unfold pick_string. now rewrite pick_chars_codes. Qed.

Lemma window_codes_length bv i n : List.length (window_codes bv i n) = n.
Proof. revert i. induction n as [|n IH]; intros i; cbn; [reflexivity|]. now rewrite IH. Qed.

Lemma window_codes_bounded bv i n : Forall (fun k => k < 64) (window_codes bv i n).
Proof.
  revert i. induction n as [|n IH]; intros i; cbn [window_codes]; constructor; [|apply IH].
  pose proof (be_value_lt (window bv i 6)) as H. now rewrite window_length in H.
Qed.

Lemma window_codes_flat bv i codes :
  Forall (fun k => k < 64) codes ->
  window bv i (6 * List.length codes) = flat_map (be_bits 6) codes ->
  window_codes bv i (List.length codes) = codes.
Proof.
  intros H. revert i. induction H as [|k codes Hk _ IH]; intros i Hw; [reflexivity|].
  cbn [List.length] in Hw. replace (6 * S (List.length codes))%nat with (6 + 6 * List.length codes)%nat in Hw by lia.
  rewrite window_split in Hw. cbn [flat_map] in Hw.
  apply app_inj_len in Hw as [H1 H2]; [|now rewrite window_length, be_bits_length].
  cbn [List.length window_codes]. rewrite (IH (i + 6)%nat H2), H1. f_equal.
  apply be_value_fits. exact Hk.
Qed.

Lemma flat_map_bits_length codes : List.length (flat_map (be_bits 6) codes) = (6 * List.length codes)%nat.
Proof.
  induction codes as [|k codes IH]; [reflexivity|]. cbn [flat_map List.length].
  rewrite app_length, be_bits_length, IH. lia.
Qed.

Lemma trim_end_app_space s : trim_end (s ++ [32]) = trim_end s.
Proof. induction s as [|c s IH]; [reflexivity|]. cbn [app trim_end]. now rewrite IH. Qed.

Lemma trim_end_spaces s n : trim_end (s ++ repeat 32 n) = trim_end s.
Proof.
  induction n as [|n IH]; [now rewrite app_nil_r|].
  replace (s ++ repeat 32 (S n)) with ((s ++ repeat 32 n) ++ [32]).
  - now rewrite trim_end_app_space.
  - rewrite <- app_assoc. f_equal. clear. induction n as [|n IHn]; [reflexivity|].
    change (32 :: (repeat 32 n ++ [32]) = 32 :: repeat 32 (S n)). now rewrite IHn.
Qed.

Lemma encodable_whitespace c : encodable c -> is_whitespace c = (c =? 32).
Proof.
  unfold encodable, is_whitespace. intros H.
  destruct (N.leb_spec 9 c), (N.leb_spec c 13), (N.eqb_spec c 32), (N.eqb_spec c 133), (N.eqb_spec c 160),
    (N.eqb_spec c 5760), (N.leb_spec 8192 c), (N.eqb_spec c 8232), (N.eqb_spec c 8233), (N.eqb_spec c 8239),
    (N.eqb_spec c 8287), (N.eqb_spec c 12288); try lia; reflexivity.
Qed.

Lemma trim_end_id s :
  Forall encodable s -> (forall t, s <> t ++ [32]) -> trim_end s = s.
Proof.
  induction 1 as [|c s Hc Hs IH]; intros Ht; [reflexivity|]. cbn [trim_end].
  rewrite IH.
  - destruct s as [|d s]; [|reflexivity]. rewrite encodable_whitespace by assumption.
    destruct (N.eqb_spec c 32) as [->|]; [|reflexivity]. exfalso. now apply (Ht []).
  - intros t ->. now apply (Ht (c :: t)).
Qed.

Lemma trim_end_spec s :
  Forall encodable s ->
  Forall encodable (trim_end s) /\ (forall t, trim_end s <> t ++ [32]) /\
  exists n, s = trim_end s ++ repeat 32 n.
Proof.
  induction 1 as [|c s Hc Hs (IH1 & IH2 & n & IH3)].
  - cbn. split; [constructor|]. split; [|now exists 0%nat]. intros t Ht. now destruct t.
  - cbn [trim_end]. rewrite encodable_whitespace by assumption.
    destruct (trim_end s) as [|d r] eqn:E.
    + destruct (N.eqb_spec c 32) as [->|Hn].
      * split; [constructor|]. split; [intros t Ht; now destruct t|]. exists (S n). cbn. now rewrite IH3 at 1.
      * split; [constructor; [assumption|constructor]|]. split.
        -- intros t Ht. destruct t as [|x [|y t]]; cbn in Ht; try discriminate. congruence.
        -- exists n. cbn. now rewrite IH3 at 1.
    + split; [constructor; assumption|]. split.
      * intros t Ht. destruct t as [|x t]; [discriminate|]. injection Ht as _ Ht. now apply (IH2 t).
      * exists n. cbn. now rewrite IH3 at 1.
Qed.

Lemma code_chars_text text rest :
  Forall encodable text -> ~ In 64 text ->
  code_chars (map six_code text ++ rest) = text ++ code_chars rest.
Proof.
  induction 1 as [|c text Hc _ IH]; intros Hn; [reflexivity|].
  cbn [map app code_chars]. cbn [In] in Hn. rewrite IH by tauto. unfold encodable in Hc.
  assert (c <> 64) by tauto. unfold six_code.
  destruct (N.ltb_spec c 64).
  - destruct (N.eqb_spec c 0); [lia|]. destruct (N.ltb_spec c 32); [lia|]. reflexivity.
  - destruct (N.eqb_spec (c - 64) 0); [lia|]. destruct (N.ltb_spec (c - 64) 32); [|lia].
    f_equal. lia.
Qed.

Lemma code_chars_spaces n rest : code_chars (repeat 32 n ++ rest) = repeat 32 n ++ code_chars rest.
Proof.
  induction n as [|n IH]; [reflexivity|]. cbn [repeat app code_chars N.eqb Pos.eqb N.ltb].
  change (32 =? 0) with false. change (32 <? 32) with false. cbv iota. now rewrite IH.
Qed.

Lemma pick_string_field {E} bv i n text codes :
  text_field n text codes -> window bv i (6 * n) = flat_map (be_bits 6) codes ->
  @pick_string E bv i n = Ok text.
Proof.
  intros (Hn & Hb & He & Ha & Ht & spaces & junk & Hc & Hj) Hw. rewrite pick_string_codes.
  subst n. rewrite window_codes_flat by assumption. rewrite Hc, code_chars_text by assumption.
  rewrite code_chars_spaces. replace (code_chars junk) with (@nil N).
  - rewrite app_nil_r, trim_end_spaces, trim_end_id by assumption. reflexivity.
  - destruct Hj as [->|(j & ->)]; reflexivity.
Qed.

Lemma code_chars_encodable codes :
  Forall (fun k => k < 64) codes ->
  Forall encodable (code_chars codes) /\ ~ In 64 (code_chars codes) /\
  (List.length (code_chars codes) <= List.length codes)%nat.
Proof.
  induction 1 as [|k codes Hk _ (IH1 & IH2 & IH3)]; [cbn; repeat split; [constructor|tauto|lia]|].
  cbn [code_chars]. destruct (N.eqb_spec k 0) as [->|Hz].
  - cbn. repeat split; [constructor|tauto|lia].
  - cbn [List.length In]. repeat split.
    + constructor; [|assumption]. unfold encodable. destruct (N.ltb_spec k 32); lia.
    + intros [H|H]; [|tauto]. destruct (N.ltb_spec k 32); lia.
    + lia.
Qed.

Lemma pick_string_range {E} bv i n :
  exists text, @pick_string E bv i n = Ok text /\ (List.length text <= n)%nat /\
    Forall encodable text /\ ~ In 64 text /\ (forall t, text <> t ++ [32]).
Proof.
  rewrite pick_string_codes. eexists. split; [reflexivity|].
  destruct (code_chars_encodable _ (window_codes_bounded bv i n)) as (H1 & H2 & H3).
  rewrite window_codes_length in H3. pose proof (trim_end_spec _ H1) as (G1 & G2 & k & G3).
  repeat split; try assumption.
  - rewrite G3, app_length in H3. lia.
  - intros Hin. apply H2. rewrite G3. apply in_or_app. now left.
Qed.

(** ** Payload texts that need not be armored *)

Lemma six_bits_length ci : List.length (six_bits ci) = 6%nat.
Proof. reflexivity. Qed.

Lemma parse_payload_total ovf payload :
  ovf = false \/ Forall (fun c => 48 <= c mod 256) payload ->
  exists bits, List.length bits = (6 * List.length payload)%nat /\ parse_payload ovf payload = Ok bits.
Proof.
  intros H. induction payload as [|c t IH]; [now exists []|].
  destruct IH as (bits & Hl & Hb).
  { destruct H as [H|H]; [now left|right; now inversion H]. }
  cbn [parse_payload]. unfold payload_char.
  assert (E : (as_u8 c <? 48) && ovf = false).
  { destruct H as [-> |H]; [apply andb_false_r|]. apply Forall_inv in H. unfold as_u8.
    apply andb_false_iff. left. now apply N.ltb_ge. }
  rewrite E, Hb. eexists. split; [|reflexivity]. rewrite app_length, Hl.
  rewrite six_bits_length. cbn [List.length]. lia.
Qed.

Lemma parse_payload_panic payload :
  Exists (fun c => c mod 256 < 48) payload -> parse_payload true payload = Panic.
Proof.
  induction 1 as [c t H|c t _ IH]; cbn [parse_payload].
  - unfold payload_char, as_u8. apply N.ltb_lt in H. now rewrite H.
  - rewrite IH. now destruct (payload_char true c).
Qed.

Lemma parse_payload_app ovf a b :
  parse_payload ovf (a ++ b) =
  match parse_payload ovf a, parse_payload ovf b with
  | Ok x, Ok y => Ok (x ++ y)
  | Ok _, r => r
  | r, _ => r
  end.
Proof.
  induction a as [|c a IH]; cbn [app parse_payload].
  - now destruct (parse_payload ovf b).
  - destruct (payload_char ovf c); [|reflexivity]. rewrite IH.
    destruct (parse_payload ovf a); cbn [bind]; try reflexivity.
    destruct (parse_payload ovf b); cbn [bind]; try reflexivity.
Qed.

Lemma parse_payload_zeros ovf a k :
  parse_payload ovf (a ++ repeat 48 k) =
  match parse_payload ovf a with Ok x => Ok (x ++ repeat false (6 * k)) | r => r end.
Proof.
  rewrite parse_payload_app.
  assert (E : parse_payload ovf (repeat 48 k) = Ok (repeat false (6 * k))).
  { induction k as [|k IH]; [reflexivity|]. cbn [repeat parse_payload].
    change (payload_char ovf 48) with (Some 0).
    rewrite IH. replace (6 * S k)%nat with (6 + 6 * k)%nat by lia. reflexivity. }
  rewrite E. now destruct (parse_payload ovf a).
Qed.

(** A payload below '0' is the only reason for a panic. *)
Lemma parse_payload_cases ovf payload :
  (exists bits, parse_payload ovf payload = Ok bits) \/
  (ovf = true /\ Exists (fun c => c mod 256 < 48) payload /\ parse_payload ovf payload = Panic).
Proof.
  destruct ovf; [|left; destruct (parse_payload_total false payload) as (b & _ & H); eauto].
  assert (H : Forall (fun c => 48 <= c mod 256) payload \/ Exists (fun c => c mod 256 < 48) payload).
  { induction payload as [|c t [IH|IH]]; [now left| |right; now constructor 2].
    destruct (N.le_gt_cases 48 (c mod 256)); [left; now constructor|right; now constructor 1]. }
  destruct H as [H|H].
  - left. destruct (parse_payload_total true payload) as (b & _ & E); eauto.
  - right. auto using parse_payload_panic.
Qed.

Lemma check_armored s : forallb (fun c => existsb (N.eqb c) armor_alphabet) s = true -> armored s.
Proof.
  intros H. apply Forall_forall. intros c Hc. rewrite forallb_forall in H. apply H, existsb_exists in Hc.
  destruct Hc as (x & Hx & E). apply N.eqb_eq in E. now subst.
Qed.

Lemma payload_bits_model ovf payload bits : parse_payload ovf payload = Ok bits -> bits = payload_bits payload.
Proof.
  revert bits. induction payload as [|c t IH]; intros bits; cbn [parse_payload].
  - intros [= <-]. reflexivity.
  - unfold payload_char. destruct ((as_u8 c <? 48) && ovf); [discriminate|].
    destruct (parse_payload ovf t) as [b|e|]; cbn [bind]; try discriminate. intros [= <-].
    unfold payload_bits. cbn [flat_map]. fold (payload_bits t). rewrite <- (IH b eq_refl). f_equal.
    unfold char_value. cbv zeta.
    replace ((as_u8 c + 256 - 48) mod 256) with ((c + 208) mod 256).
    2:{ unfold as_u8. rewrite <- N.add_sub_assoc by discriminate. change (256 - 48) with 208.
        now rewrite N.add_mod_idemp_l by discriminate. }
    generalize (if 40 <? (c + 208) mod 256 then (c + 208) mod 256 - 8 else (c + 208) mod 256). intros v.
    unfold six_bits. cbn [map be_bits].
    assert (X : forall k, k < 6 -> negb (N.land (N.shiftr v k) 1 =? 0) = N.testbit (v mod 64) k).
    { intros k Hk. change 64 with (2 ^ 6). rewrite N.mod_pow2_bits_low by exact Hk.
      change 1 with (N.ones 1). rewrite N.land_ones.
      change (2 ^ 1) with 2. rewrite <- N.bit0_mod, N.shiftr_spec', N.add_0_l. now destruct (N.testbit v k). }
    pose proof (X 5 ltac:(lia)) as X5. pose proof (X 4 ltac:(lia)) as X4. pose proof (X 3 ltac:(lia)) as X3.
    pose proof (X 2 ltac:(lia)) as X2. pose proof (X 1 ltac:(lia)) as X1. pose proof (X 0 ltac:(lia)) as X0.
    cbn [N.shiftr Pos.iter] in X5, X4, X3, X2, X1, X0. rewrite X5, X4, X3, X2, X1, X0. reflexivity.
Qed.

Lemma parse_payload_readable ovf payload bits :
  parse_payload ovf payload = Ok bits <-> readable ovf payload /\ bits = payload_bits payload.
Proof.
  split.
  - intros E. split; [|now apply payload_bits_model in E]. intros ->. apply Forall_forall. intros c Hc.
    destruct (N.lt_ge_cases (c mod 256) 48) as [L|L]; [|exact L]. exfalso.
    rewrite parse_payload_panic in E; [discriminate|]. apply Exists_exists. eauto.
  - intros [R ->]. destruct (parse_payload_cases ovf payload) as [(b & E)|(-> & X & _)].
    + rewrite E. f_equal. now apply payload_bits_model in E.
    + exfalso. specialize (R eq_refl). rewrite Forall_forall in R. apply Exists_exists in X as (c & Hc & L).
      specialize (R c Hc). lia.
Qed.
