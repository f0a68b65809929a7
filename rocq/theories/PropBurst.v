(** C113: which damage the checksum notices. *)
From stdpp Require Import gmap.
From Coq Require Import List NArith ZArith Arith Bool String Permutation Lia.
From Verif Require Import Base Str F64 Chrono Types Util AisMod Vdm Gnss Parser
  SpecText SpecResult SpecAis SpecTime SpecState SpecDamage SpecBurst
  StrFacts FrontFacts CallFacts ResultFacts PropFront PropDamage PropState.
Import ListNotations.
Open Scope N_scope.
Local Opaque pick_string pick_u64 pick_i64 pick_eta parse_f64.

Lemma low_testbit r j : N.testbit (low r) (N.of_nat j) = if (j <? 8)%nat then fold_right xorb false (map (fun c => N.testbit c (N.of_nat j)) r) else false.
Proof.
  destruct (Nat.ltb_spec j 8) as [H|H].
  - unfold low. induction r as [|c r IH]; [reflexivity|]. cbn [map xor_all fold_right].
    fold (xor_all (map (fun c => c mod 256) r)). rewrite N.lxor_spec, IH. f_equal.
    change 256 with (2 ^ 8). apply N.mod_pow2_bits_low. lia.
  - pose proof (low_lt r) as L. rewrite <- (N.mod_small _ _ L). change 256 with (2 ^ 8). apply N.mod_pow2_bits_high. lia.
Qed.

Lemma differing_parity a b : List.length a = List.length b ->
  xorb (fold_right xorb false a) (fold_right xorb false b) = Nat.odd (differing a b).
Proof.
  revert b. induction a as [|x a IH]; intros [|y b] H; try discriminate; [reflexivity|].
  injection H as H. specialize (IH b H). unfold differing in *. cbn [combine filter fst snd fold_right].
  destruct (xorb x y) eqn:E.
  - cbn [List.length]. rewrite Nat.odd_succ, <- Nat.negb_odd, <- IH.
    destruct x, y; try discriminate; destruct (fold_right xorb false a), (fold_right xorb false b); reflexivity.
  - rewrite <- IH. destruct x, y; try discriminate; destruct (fold_right xorb false a), (fold_right xorb false b); reflexivity.
Qed.

Lemma same_low r r' : List.length r = List.length r' ->
  (low r = low r' <-> forall j, (j < 8)%nat -> Nat.odd (wrong_bits_in j r r') = false).
Proof.
  intros L. split.
  - intros E j Hj. unfold wrong_bits_in. rewrite <- differing_parity by (rewrite !map_length; exact L).
    pose proof (low_testbit r j) as A. pose proof (low_testbit r' j) as B.
    apply Nat.ltb_lt in Hj. rewrite Hj in A, B. rewrite <- A, <- B, E. apply xorb_nilpotent.
  - intros H. apply N.bits_inj. intros n. rewrite <- (N2Nat.id n). rewrite !low_testbit.
    destruct (Nat.ltb_spec (N.to_nat n) 8) as [Hj|]; [|reflexivity].
    specialize (H _ Hj). unfold wrong_bits_in in H. rewrite <- differing_parity in H by (rewrite !map_length; exact L).
    now apply xorb_eq.
Qed.

(** Whatever characters behind the first one are received wrong: the damage is noticed exactly if in one of the eight bits of
    the characters the number of errors is odd. If it is not noticed, the text is read as if it had been sent so. *)
Theorem c113_parity ovf now p f r f' r' :
  List.length r = List.length r' ->
  let received := (f' :: r') ++ lit "*" ++ nmea_checksum (f :: r) in
  ((exists j, (j < 8)%nat /\ Nat.odd (wrong_bits_in j r r') = true) ->
   parse_sentence ovf now received p = (Err (CorruptedSentence (nmea_checksum (f' :: r')) (nmea_checksum (f :: r))), p)) /\
  ((forall j, (j < 8)%nat -> Nat.even (wrong_bits_in j r r') = true) -> received = sent (f' :: r')).
Proof.
  intros L received. split.
  - intros (j & Hj & H). apply wrong_checksum. intros E. rewrite (same_low r r' L) in E. rewrite (E j Hj) in H. discriminate.
  - intros H. unfold received, sent. rewrite (proj2 (checksum_eq f r f' r')); [reflexivity|].
    apply (same_low r r' L). intros j Hj. rewrite <- Nat.negb_even, (H j Hj). reflexivity.
Qed.
Print Assumptions c113_parity.

Lemma differing_app a b c d : List.length a = List.length c ->
  differing (a ++ b) (c ++ d) = (differing a c + differing b d)%nat.
Proof.
  revert c. induction a as [|x a IH]; intros [|y c] H; try discriminate; [reflexivity|]. injection H as H.
  unfold differing in *. cbn [app combine filter fst snd]. destruct (xorb x y); cbn [List.length]; rewrite (IH c H); lia.
Qed.

Lemma wrong_bits_sum r r' : List.length r = List.length r' ->
  wrong_bits r r' = list_sum (map (fun j => wrong_bits_in j r r') (seq 0 8)).
Proof.
  revert r'. induction r as [|c r IH]; intros [|c' r'] H; try discriminate; [reflexivity|]. injection H as H.
  unfold wrong_bits, line_bits in *. cbn [flat_map]. rewrite differing_app by reflexivity. rewrite (IH r' H). clear IH H.
  assert (S : forall j, wrong_bits_in j (c :: r) (c' :: r') =
    ((if xorb (N.testbit c (N.of_nat j)) (N.testbit c' (N.of_nat j)) then 1 else 0) + wrong_bits_in j r r')%nat).
  { intros j. unfold wrong_bits_in, differing. cbn [map combine filter fst snd]. destruct (xorb _ _); reflexivity. }
  rewrite (map_ext _ _ S). cbn [seq map list_sum fold_right].
  assert (D : forall x y a b, differing (x :: a) (y :: b) = ((if xorb x y then 1 else 0) + differing a b)%nat)
    by (intros x y a b; unfold differing; cbn [combine filter fst snd]; destruct (xorb x y); reflexivity).
  rewrite !D. change (differing [] []) with 0%nat. lia.
Qed.

(** Every odd number of wrong bits is noticed. *)
Theorem c113_odd ovf now p f r f' r' :
  List.length r = List.length r' -> Nat.odd (wrong_bits r r') = true ->
  parse_sentence ovf now ((f' :: r') ++ lit "*" ++ nmea_checksum (f :: r)) p =
  (Err (CorruptedSentence (nmea_checksum (f' :: r')) (nmea_checksum (f :: r))), p).
Proof.
  intros L O. apply (proj1 (c113_parity ovf now p f r f' r' L)).
  rewrite (wrong_bits_sum r r' L) in O.
  assert (G : forall l, Nat.odd (list_sum (map (fun j => wrong_bits_in j r r') l)) = true ->
    exists j, In j l /\ Nat.odd (wrong_bits_in j r r') = true).
  { induction l as [|j l IH]; [discriminate|]. cbn [map list_sum fold_right].
    fold (list_sum (map (fun j => wrong_bits_in j r r') l)). rewrite Nat.odd_add.
    destruct (Nat.odd (wrong_bits_in j r r')) eqn:E; [intros _; exists j; split; [now left|exact E]|].
    rewrite xorb_false_l. intros H. destruct (IH H) as (k & Hk & K). exists k. split; [now right|exact K]. }
  destruct (G _ O) as (j & Hj & H). exists j. apply in_seq in Hj. split; [lia|exact H].
Qed.
Print Assumptions c113_odd.

Lemma line_bits_length s : List.length (line_bits s) = (8 * List.length s)%nat.
Proof.
  induction s as [|c s IH]; [reflexivity|]. unfold line_bits in *. cbn [flat_map]. rewrite app_length, IH, map_length, seq_length.
  cbn [List.length]. lia.
Qed.

Lemma line_bits_nth s i j : (j < 8)%nat -> nth (8 * i + j) (line_bits s) false = nth i (map (fun c => N.testbit c (N.of_nat j)) s) false.
Proof.
  intros Hj. revert i. induction s as [|c s IH]; intros i.
  - cbn [line_bits flat_map map]. rewrite !nth_overflow by (cbn; lia). reflexivity.
  - unfold line_bits in *. cbn [flat_map]. destruct i as [|i].
    + rewrite app_nth1 by (rewrite map_length, seq_length; lia).
      replace (8 * 0 + j)%nat with j by lia. cbn [map nth].
      do 8 (destruct j as [|j]; [reflexivity|]). lia.
    + rewrite app_nth2 by (rewrite map_length, seq_length; lia). rewrite map_length, seq_length.
      replace (8 * S i + j - 8)%nat with (8 * i + j)%nat by lia. rewrite IH. reflexivity.
Qed.

Lemma differing_once a b i : List.length a = List.length b -> (forall k, k <> i -> nth k a false = nth k b false) ->
  nth i a false <> nth i b false -> differing a b = 1%nat.
Proof.
  assert (Z : forall a b, List.length a = List.length b -> (forall k, nth k a false = nth k b false) -> differing a b = 0%nat).
  { clear. induction a as [|x a IH]; intros [|y b] L H; try discriminate; [reflexivity|]. injection L as L.
    unfold differing in *. cbn [combine filter fst snd]. pose proof (H 0%nat) as H0. cbn in H0. subst y. rewrite xorb_nilpotent.
    apply IH; [exact L|]. intros k. exact (H (S k)). }
  revert b i. induction a as [|x a IH]; intros [|y b] i L H D; try discriminate; [destruct i; contradiction|]. injection L as L.
  assert (E : differing (x :: a) (y :: b) = ((if xorb x y then 1 else 0) + differing a b)%nat)
    by (unfold differing; cbn [combine filter fst snd]; destruct (xorb x y); reflexivity).
  rewrite E. destruct i as [|i].
  - cbn in D. rewrite (Z a b L) by (intros k; exact (H (S k) ltac:(lia))). destruct x, y; try contradiction; reflexivity.
  - pose proof (H 0%nat ltac:(lia)) as H0. cbn in H0. subst y. rewrite xorb_nilpotent.
    rewrite (IH b i L); [reflexivity| |exact D]. intros k Hk. exact (H (S k) ltac:(lia)).
Qed.

(** Every burst of at most eight bits is noticed, however many of them are wrong. *)
Theorem c113_burst ovf now p f r f' r' :
  List.length r = List.length r' -> burst 8 r r' -> line_bits r <> line_bits r' ->
  parse_sentence ovf now ((f' :: r') ++ lit "*" ++ nmea_checksum (f :: r)) p =
  (Err (CorruptedSentence (nmea_checksum (f' :: r')) (nmea_checksum (f :: r))), p).
Proof.
  intros L (k & B) D. apply (proj1 (c113_parity ovf now p f r f' r' L)).
  assert (Q : exists q, nth q (line_bits r) false <> nth q (line_bits r') false).
  { destruct (existsb (fun q => xorb (nth q (line_bits r) false) (nth q (line_bits r') false)) (seq 0 (List.length (line_bits r)))) eqn:E.
    - apply existsb_exists in E as (q & _ & E). exists q. intros X. rewrite X, xorb_nilpotent in E. discriminate.
    - exfalso. apply D. apply (nth_ext _ _ false false); [rewrite !line_bits_length, L; reflexivity|].
      intros q Hq. destruct (xorb (nth q (line_bits r) false) (nth q (line_bits r') false)) eqn:X; [|now apply xorb_eq].
      assert (T : existsb (fun q => xorb (nth q (line_bits r) false) (nth q (line_bits r') false)) (seq 0 (List.length (line_bits r))) = true)
        by (apply existsb_exists; exists q; split; [apply in_seq; lia|exact X]).
      congruence. }
  destruct Q as (q & Hq).
  pose proof (Nat.div_mod q 8 ltac:(lia)) as Eq. pose proof (Nat.mod_upper_bound q 8 ltac:(lia)) as Hj.
  set (i := (q / 8)%nat) in *. set (j := (q mod 8)%nat) in *. clearbody i j. subst q.
  exists j. split; [exact Hj|]. unfold wrong_bits_in.
  rewrite (differing_once _ _ i); [reflexivity|rewrite !map_length; exact L| |].
  - intros l Hl. rewrite <- !line_bits_nth by exact Hj. apply B.
    destruct (Nat.lt_ge_cases (8 * i + j) k) as [C|C]; [exfalso; apply Hq, B; lia|].
    destruct (Nat.le_gt_cases (k + 8) (8 * i + j)) as [C'|C']; [exfalso; apply Hq, B; lia|]. lia.
  - rewrite <- !line_bits_nth by exact Hj. exact Hq.
Qed.
Print Assumptions c113_burst.

(** Characters that change places are never noticed: the text is read as it stands. *)
Theorem c113_reordered ovf now p f r r' :
  Permutation r r' -> ~ In 42 (f :: r) ->
  parse_sentence ovf now ((f :: r') ++ lit "*" ++ nmea_checksum (f :: r)) p = parse_sentence ovf now (f :: r') p.
Proof.
  intros P S. rewrite (proj2 (checksum_eq f r f r')).
  - apply c02_checksum_optional. intros [H|H]; apply S; [now left|right]. now apply (Permutation_in _ (Permutation_sym P)).
  - clear S. unfold low. induction P as [|x l l' P IH|x y l|l l' l'' P1 IH1 P2 IH2]; [reflexivity| | |congruence].
    + cbn [map xor_all fold_right]. fold (xor_all (map (fun c => c mod 256) l)). fold (xor_all (map (fun c => c mod 256) l')). now rewrite IH.
    + cbn [map xor_all fold_right]. rewrite <- !N.lxor_assoc. f_equal. apply N.lxor_comm.
Qed.
Print Assumptions c113_reordered.

Definition ex_gll_sent : str := lit "$GPGLL,4916.45,N,12311.12,W,225444,A".
Definition ex_gll_swapped : str := lit "$GPGLL,4961.45,N,12311.12,W,225444,A".

(** Two digits of a latitude change places: the ship is 45 minutes further north. *)
Example c113_example ovf p :
  parse_sentence ovf ex_now (ex_gll_swapped ++ lit "*" ++ nmea_checksum ex_gll_sent) p = parse_sentence ovf ex_now ex_gll_swapped p /\
  (exists d d', fst (parse_sentence true ex_now (ex_gll_sent ++ lit "*" ++ nmea_checksum ex_gll_sent) new_parser) = Ok (PsGll d) /\
     fst (parse_sentence true ex_now (ex_gll_swapped ++ lit "*" ++ nmea_checksum ex_gll_sent) new_parser) = Ok (PsGll d') /\
     gll_latitude d <> gll_latitude d' /\ gll_longitude d = gll_longitude d').
Proof.
  split.
  - unfold ex_gll_sent, ex_gll_swapped. cbn [lit].
    change (lit "$GPGLL,4961.45,N,12311.12,W,225444,A") with (36 :: (lit "GPGLL,49" ++ [54; 49] ++ lit ".45,N,12311.12,W,225444,A")).
    change (lit "$GPGLL,4916.45,N,12311.12,W,225444,A") with (36 :: (lit "GPGLL,49" ++ [49; 54] ++ lit ".45,N,12311.12,W,225444,A")).
    apply c113_reordered.
    + apply Permutation_app_head, Permutation_app_tail. apply perm_swap.
    + vm_compute. intuition discriminate.
  - do 2 eexists. split; [vm_compute; reflexivity|]. split; [vm_compute; reflexivity|]. split; [discriminate|reflexivity].
Qed.

(** A burst of nine bits, of which the first and the last are wrong, passes; one wrong bit more and it does not, nor does a
    burst of eight bits across two characters with four wrong ones. *)
Example c113_burst_example :
  burst 9 (lit "GPGLL,49") (lit "GPGLL,58") /\ wrong_bits (lit "GPGLL,49") (lit "GPGLL,58") = 2%nat /\
  parse_sentence true ex_now (lit "$GPGLL,58" ++ lit "*" ++ nmea_checksum (lit "$GPGLL,49")) new_parser =
    parse_sentence true ex_now (lit "$GPGLL,58") new_parser /\
  burst 8 (lit "AQ,B") (lit "Aa/B") /\ wrong_bits (lit "AQ,B") (lit "Aa/B") = 4%nat /\
  (forall ovf p, exists e, parse_sentence ovf ex_now (lit "$Aa/B*" ++ nmea_checksum (lit "$AQ,B")) p = (Err e, p)) /\
  wrong_bits (lit "GPGLL,49") (lit "GPGLL,5:") = 3%nat /\
  (forall ovf p, exists e, parse_sentence ovf ex_now (lit "$GPGLL,5:*" ++ nmea_checksum (lit "$GPGLL,49")) p = (Err e, p)).
Proof.
  assert (W : forall n k r r', List.length r = List.length r' ->
    forallb (fun q => (k <=? q)%nat && (q <? k + n)%nat || Bool.eqb (nth q (line_bits r) false) (nth q (line_bits r') false))
      (seq 0 (8 * List.length r)) = true -> burst n r r').
  { intros n k r r' L F. exists k. intros q Hq. destruct (Nat.lt_ge_cases q (8 * List.length r)) as [H|H].
    - rewrite forallb_forall in F. specialize (F q). rewrite in_seq in F. specialize (F ltac:(lia)).
      apply orb_true_iff in F as [F|F]; [|now apply eqb_prop].
      apply andb_true_iff in F as [F1 F2]. apply Nat.leb_le in F1. apply Nat.ltb_lt in F2. lia.
    - rewrite !nth_overflow by (rewrite line_bits_length; lia). reflexivity. }
  assert (B : burst 8 (lit "AQ,B") (lit "Aa/B")) by (apply (W _ 12%nat); [reflexivity|vm_compute; reflexivity]).
  split; [apply (W _ 48%nat); [reflexivity|vm_compute; reflexivity]|]. split; [vm_compute; reflexivity|].
  split; [vm_compute; reflexivity|]. split; [exact B|]. split; [vm_compute; reflexivity|].
  split; [intros ovf p; eexists; refine (c113_burst ovf ex_now p 36 (lit "AQ,B") 36 (lit "Aa/B") eq_refl B _); vm_compute; discriminate|].
  split; [vm_compute; reflexivity|]. intros ovf p. eexists.
  refine (c113_odd ovf ex_now p 36 (lit "GPGLL,49") 36 (lit "GPGLL,5:") eq_refl _). vm_compute. reflexivity.
Qed.
