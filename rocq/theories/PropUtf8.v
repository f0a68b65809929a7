(** C105: sentences as text and as bytes. *)
From stdpp Require Import gmap.
From Coq Require Import List NArith ZArith Bool String Lia.
From Verif Require Import Base Str F64 Chrono Types Util AisMod Vdm Gnss Parser Utf8
  SpecText SpecResult SpecTime SpecUtf8 StrFacts FrontFacts CallFacts PropFront.
Import ListNotations.
Open Scope N_scope.

(** ** One character *)

Lemma encode_length c : List.length (encode_char c) = utf8_len c.
Proof. unfold encode_char, utf8_len. now destruct (c <? 128), (c <? 2048), (c <? 65536). Qed.

Lemma bytes_cons c t : bytes (c :: t) = encode_char c ++ bytes t. Proof. reflexivity. Qed.

Lemma bytes_length s : List.length (bytes s) = byte_len s.
Proof. induction s as [|c t IH]; [reflexivity|]. rewrite bytes_cons, app_length, encode_length. cbn [byte_len]. now rewrite IH. Qed.

Lemma bytes_app a b : bytes (a ++ b) = bytes a ++ bytes b.
Proof. unfold bytes. apply flat_map_app. Qed.

Lemma mod_at a m k q : a = k * m + q -> q < m -> a mod m = q.
Proof. intros -> H. symmetry. apply (N.mod_unique _ _ k); [exact H|]. lia. Qed.

Lemma split_char c : exists q1 q2 q3 r0 r1 r2,
  c / 64 = q1 /\ c / 4096 = q2 /\ c / 262144 = q3 /\ c mod 64 = r0 /\ q1 mod 64 = r1 /\ q2 mod 64 = r2 /\
  c = 64 * q1 + r0 /\ q1 = 64 * q2 + r1 /\ q2 = 64 * q3 + r2 /\ r0 < 64 /\ r1 < 64 /\ r2 < 64.
Proof.
  exists (c / 64), (c / 4096), (c / 262144), (c mod 64), (c / 64 mod 64), (c / 4096 mod 64).
  change 4096 with (64 * 64). change 262144 with (64 * 64 * 64). rewrite <- !N.div_div by discriminate.
  repeat split; try (now apply N.div_mod); now apply N.mod_lt.
Qed.
(** Names for the quotients and remainders of a character. *)
Ltac split_parts c :=
  destruct (split_char c) as (q1 & q2 & q3 & r0 & r1 & r2 & Q1 & Q2 & Q3 & M0 & M1 & M2 & E0 & E1 & E2 & B0 & B1 & B2);
  rewrite ?Q1, ?Q2, ?Q3, ?M0, ?M1, ?M2; clear Q1 Q2 Q3 M0 M1 M2.

Lemma decode_encode c l : c < 1114112 -> decode (encode_char c ++ l) = c :: decode l.
Proof.
  intros H. unfold encode_char. split_parts c.
  destruct (N.ltb_spec c 128) as [A|A]; [cbn [app decode]; now rewrite (proj2 (N.ltb_lt _ _) A)|].
  destruct (N.ltb_spec c 2048) as [B|B].
  - cbn [app decode]. destruct (N.ltb_spec (192 + q1) 128); [lia|]. destruct (N.ltb_spec (192 + q1) 224); [|lia].
    rewrite (mod_at (192 + q1) 32 6 q1), (mod_at (128 + r0) 64 2 r0) by lia. f_equal. lia.
  - destruct (N.ltb_spec c 65536) as [C|C].
    + cbn [app decode]. destruct (N.ltb_spec (224 + q2) 128); [lia|]. destruct (N.ltb_spec (224 + q2) 224); [lia|].
      destruct (N.ltb_spec (224 + q2) 240); [|lia].
      rewrite (mod_at (224 + q2) 16 14 q2), (mod_at (128 + r1) 64 2 r1), (mod_at (128 + r0) 64 2 r0) by lia. f_equal. lia.
    + cbn [app decode]. destruct (N.ltb_spec (240 + q3) 128); [lia|]. destruct (N.ltb_spec (240 + q3) 224); [lia|].
      destruct (N.ltb_spec (240 + q3) 240); [lia|].
      rewrite (mod_at (240 + q3) 8 30 q3), (mod_at (128 + r2) 64 2 r2), (mod_at (128 + r1) 64 2 r1), (mod_at (128 + r0) 64 2 r0) by lia.
      f_equal. lia.
Qed.

Lemma scalar_bound c : scalar c -> c < 1114112. Proof. unfold scalar. lia. Qed.

Lemma decode_bytes s : Forall scalar s -> decode (bytes s) = s.
Proof.
  induction 1 as [|c t H _ IH]; [reflexivity|]. rewrite bytes_cons, decode_encode by now apply scalar_bound. now rewrite IH.
Qed.

Lemma bytes_valid s : Forall scalar s -> valid_utf8 (bytes s).
Proof.
  induction 1 as [|c t H _ IH]; [constructor|]. rewrite bytes_cons. unfold encode_char, scalar in *. split_parts c.
  destruct (N.ltb_spec c 128); [now constructor|]. destruct (N.ltb_spec c 2048).
  - cbn [app]. constructor; [|unfold continuation|assumption]; lia.
  - destruct (N.ltb_spec c 65536); cbn [app]; constructor; try assumption; unfold continuation; lia.
Qed.

Ltac split_again x :=
  split_parts x;
  repeat match goal with |- _ :: _ = _ :: _ => apply f_equal2; [lia|] end; reflexivity.

Lemma valid_bytes b : valid_utf8 b -> exists s, Forall scalar s /\ bytes s = b.
Proof.
  induction 1 as [|a l A _ (s & F & E)|a b l A B _ (s & F & E)|a b c l A B C D G _ (s & F & E)|a b c d l A B C D G I _ (s & F & E)];
    unfold continuation in *.
  - exists []. split; [constructor|reflexivity].
  - exists (a :: s). split; [constructor; [unfold scalar; lia|exact F]|]. rewrite bytes_cons, E. unfold encode_char.
    destruct (N.ltb_spec a 128); [reflexivity|lia].
  - exists ((a - 192) * 64 + (b - 128) :: s). split; [constructor; [unfold scalar; lia|exact F]|]. rewrite bytes_cons, E. unfold encode_char.
    destruct (N.ltb_spec ((a - 192) * 64 + (b - 128)) 128); [lia|]. destruct (N.ltb_spec ((a - 192) * 64 + (b - 128)) 2048); [|lia].
    cbn [app]. split_again ((a - 192) * 64 + (b - 128)).
  - exists ((a - 224) * 4096 + (b - 128) * 64 + (c - 128) :: s). split; [constructor; [unfold scalar; lia|exact F]|].
    rewrite bytes_cons, E. unfold encode_char. set (x := (a - 224) * 4096 + (b - 128) * 64 + (c - 128)) in *.
    destruct (N.ltb_spec x 128); [lia|]. destruct (N.ltb_spec x 2048); [lia|]. destruct (N.ltb_spec x 65536); [|lia].
    cbn [app]. split_again x.
  - exists ((a - 240) * 262144 + (b - 128) * 4096 + (c - 128) * 64 + (d - 128) :: s). split; [constructor; [unfold scalar; lia|exact F]|].
    rewrite bytes_cons, E. unfold encode_char. set (x := (a - 240) * 262144 + (b - 128) * 4096 + (c - 128) * 64 + (d - 128)) in *.
    destruct (N.ltb_spec x 128); [lia|]. destruct (N.ltb_spec x 2048); [lia|]. destruct (N.ltb_spec x 65536); [lia|].
    cbn [app]. split_again x.
Qed.

(** ** Slices *)

Definition leader (x : N) : bool := (x <? 128) || (192 <=? x).

Lemma bytes_head s : match bytes s with [] => s = [] | x :: _ => leader x = true end.
Proof.
  destruct s as [|c t]; [reflexivity|]. rewrite bytes_cons. unfold encode_char, leader. split_parts c.
  destruct (N.ltb_spec c 128) as [A|A]; [cbn [app]; now rewrite (proj2 (N.ltb_lt _ _) A)|].
  destruct (c <? 2048); [|destruct (c <? 65536)]; cbn [app]; apply orb_true_iff; right; apply N.leb_le; lia.
Qed.

Lemma inside_char c k : (0 < k < utf8_len c)%nat -> exists x, nth_error (encode_char c) k = Some x /\ leader x = false.
Proof.
  assert (L : forall r, r < 64 -> leader (128 + r) = false).
  { intros r H. unfold leader. destruct (N.ltb_spec (128 + r) 128); [lia|]. destruct (N.leb_spec 192 (128 + r)); [lia|reflexivity]. }
  unfold utf8_len, encode_char. split_parts c.
  destruct (c <? 128); [lia|]. destruct (c <? 2048); [|destruct (c <? 65536)]; intros H.
  - destruct k as [|[|k]]; [lia| |lia]. eexists. split; [reflexivity|now apply L].
  - destruct k as [|[|[|k]]]; [lia| | |lia]; (eexists; split; [reflexivity|now apply L]).
  - destruct k as [|[|[|[|k]]]]; [lia| | | |lia]; (eexists; split; [reflexivity|now apply L]).
Qed.

Lemma utf8_len_pos c : (0 < utf8_len c)%nat.
Proof. unfold utf8_len. destruct (c <? 128), (c <? 2048), (c <? 65536); lia. Qed.

Lemma boundary_later c t k : (utf8_len c <= k)%nat ->
  is_char_boundary (encode_char c ++ bytes t) k = is_char_boundary (bytes t) (k - utf8_len c).
Proof.
  intros H. pose proof (utf8_len_pos c) as P. unfold is_char_boundary. destruct (Nat.eqb_spec k 0); [lia|].
  rewrite nth_error_app2, app_length, encode_length by now rewrite encode_length.
  destruct (Nat.eqb_spec (k - utf8_len c) 0) as [E|E].
  - rewrite E. pose proof (bytes_head t) as B. destruct (bytes t) as [|x l]; cbn [nth_error]; [|exact B].
    cbn [List.length]. apply Nat.eqb_eq. lia.
  - destruct (nth_error (bytes t) (k - utf8_len c)); [reflexivity|].
    destruct (Nat.eqb_spec k (utf8_len c + List.length (bytes t))), (Nat.eqb_spec (k - utf8_len c) (List.length (bytes t))); lia || reflexivity.
Qed.

Lemma boundary_inside c l k : (0 < k < utf8_len c)%nat -> is_char_boundary (encode_char c ++ l) k = false.
Proof.
  intros H. destruct (inside_char c k H) as (x & E & L). unfold is_char_boundary. destruct (Nat.eqb_spec k 0); [lia|].
  rewrite nth_error_app1 by (rewrite encode_length; lia). rewrite E. exact L.
Qed.

Lemma drop_bytes_spec s : forall k, match drop_bytes s k with
  | Some t => is_char_boundary (bytes s) k = true /\ bytes t = skipn k (bytes s)
  | None => is_char_boundary (bytes s) k = false
  end.
Proof.
  induction s as [|c t IH]; intros [|k]; cbn [drop_bytes]; try (split; reflexivity); try reflexivity.
  rewrite bytes_cons. destruct (Nat.leb_spec (utf8_len c) (S k)) as [H|H].
  - rewrite boundary_later by exact H. specialize (IH (S k - utf8_len c)%nat).
    destruct (drop_bytes t (S k - utf8_len c)) as [u|]; [|exact IH]. destruct IH as [IH1 IH2]. split; [exact IH1|].
    rewrite IH2, skipn_app, encode_length. rewrite (skipn_all2 (encode_char c)) by now rewrite encode_length. reflexivity.
  - apply boundary_inside. lia.
Qed.

Lemma take_bytes_spec s : forall k, match take_bytes s k with
  | Some t => is_char_boundary (bytes s) k = true /\ bytes t = firstn k (bytes s)
  | None => is_char_boundary (bytes s) k = false
  end.
Proof.
  induction s as [|c t IH]; intros [|k]; cbn [take_bytes]; try (split; reflexivity); try reflexivity.
  rewrite bytes_cons. destruct (Nat.leb_spec (utf8_len c) (S k)) as [H|H].
  - rewrite boundary_later by exact H. specialize (IH (S k - utf8_len c)%nat).
    destruct (take_bytes t (S k - utf8_len c)) as [u|]; cbn [option_map]; [|exact IH]. destruct IH as [IH1 IH2]. split; [exact IH1|].
    rewrite bytes_cons, IH2, firstn_app, encode_length. f_equal. symmetry. apply firstn_all2. rewrite encode_length. exact H.
  - apply boundary_inside. lia.
Qed.

(** The boundaries of what remains after a boundary. *)
Lemma boundary_shift s k t j : drop_bytes s k = Some t -> is_char_boundary (bytes s) (k + j) = is_char_boundary (bytes t) j.
Proof.
  revert k j. induction s as [|c u IH]; intros [|k] j; cbn [drop_bytes]; intros H; try discriminate; try (injection H as <-; reflexivity).
  destruct (Nat.leb_spec (utf8_len c) (S k)) as [L|L]; [|discriminate]. rewrite bytes_cons, boundary_later by lia.
  rewrite <- (IH _ j H). f_equal. lia.
Qed.

Lemma slice_bytes s i j : byte_slice (bytes s) i j = option_map bytes (slice s i j).
Proof.
  unfold byte_slice, slice. pose proof (drop_bytes_spec s i) as D. destruct (drop_bytes s i) as [t|] eqn:E.
  - destruct D as [D1 D2]. rewrite D1, andb_true_r. destruct (Nat.leb_spec i j) as [L|L]; [|reflexivity]. cbn [andb].
    replace (is_char_boundary (bytes s) j) with (is_char_boundary (bytes t) (j - i)) by
      (rewrite <- (boundary_shift s i t (j - i) E); f_equal; lia).
    pose proof (take_bytes_spec t (j - i)) as T. destruct (take_bytes t (j - i)) as [u|].
    + destruct T as [-> T]. cbn [option_map]. now rewrite T, D2.
    + now rewrite T.
  - rewrite D, andb_false_r. reflexivity.
Qed.

(** ** Searches *)

Lemma encode_other a c : a < 128 -> c <> a -> ~ In a (encode_char c).
Proof.
  intros A H. unfold encode_char. split_parts c.
  destruct (c <? 128); [cbn [In]; intuition congruence|].
  destruct (c <? 2048); [|destruct (c <? 65536)]; cbn [In]; lia.
Qed.

Lemma encode_ascii a : a < 128 -> encode_char a = [a].
Proof. intros H. unfold encode_char. now rewrite (proj2 (N.ltb_lt _ _) H). Qed.

Lemma find_app_out c a l : ~ In c a -> byte_find c (a ++ l) = option_map (Nat.add (List.length a)) (byte_find c l).
Proof.
  induction a as [|x a IH]; intros H; cbn [app byte_find List.length]; [now destruct (byte_find c l)|].
  destruct (N.eqb_spec x c) as [-> |]; [destruct H; now left|]. rewrite IH by (intros X; apply H; now right). now destruct (byte_find c l).
Qed.

Lemma rfind_app_out c a l : ~ In c a -> byte_rfind c (a ++ l) = option_map (Nat.add (List.length a)) (byte_rfind c l).
Proof.
  induction a as [|x a IH]; intros H; cbn [app byte_rfind List.length]; [now destruct (byte_rfind c l)|].
  rewrite IH by (intros X; apply H; now right). destruct (byte_rfind c l); [reflexivity|]. cbn [option_map].
  destruct (N.eqb_spec x c) as [-> |]; [destruct H; now left|reflexivity].
Qed.

Lemma find_bytes a s : a < 128 -> byte_find a (bytes s) = option_map (fun t => List.length (bytes t)) (before_first a s).
Proof.
  intros A. induction s as [|c t IH]; [reflexivity|]. rewrite bytes_cons. cbn [before_first]. destruct (N.eqb_spec c a) as [-> |N].
  - rewrite encode_ascii by exact A. cbn [app byte_find option_map]. now rewrite N.eqb_refl.
  - rewrite find_app_out by now apply encode_other. rewrite IH. destruct (before_first a t); [|reflexivity]. cbn [option_map].
    now rewrite bytes_cons, app_length.
Qed.

Lemma rfind_bytes a s : a < 128 -> byte_rfind a (bytes s) = option_map (fun '(t, _) => List.length (bytes t)) (split_last a s).
Proof.
  intros A. induction s as [|c t IH]; [reflexivity|]. rewrite bytes_cons. cbn [split_last]. destruct (N.eqb_spec c a) as [-> |N].
  - rewrite encode_ascii by exact A. cbn [app byte_rfind]. rewrite IH. destruct (split_last a t) as [[u v]|]; cbn [option_map].
    + rewrite bytes_cons, encode_ascii by exact A. reflexivity.
    + now rewrite N.eqb_refl.
  - rewrite rfind_app_out by now apply encode_other. rewrite IH. destruct (split_last a t) as [[u v]|]; [|reflexivity]. cbn [option_map].
    now rewrite bytes_cons, app_length.
Qed.

(** ** The first part of a call *)

Lemma slice_start a b : slice (a ++ b) 0 (List.length (bytes a)) = Some a.
Proof. rewrite bytes_length. apply slice_some; [lia|]. exists [], b. repeat split; cbn [byte_len]; lia. Qed.

Lemma byte_split_spec s : byte_split (bytes s) = Some (bytes (fst (split_checksum s)), bytes (snd (split_checksum s))).
Proof.
  unfold byte_split, split_checksum. rewrite rfind_bytes by reflexivity. destruct (split_last 42 s) as [[t v]|] eqn:E; [|reflexivity].
  apply split_last_some in E as [-> _]. cbn [option_map fst snd]. rewrite !slice_bytes, slice_start. cbn [option_map].
  replace (slice (t ++ 42 :: v) (List.length (bytes t) + 1) (List.length (bytes (t ++ 42 :: v)))) with (Some v); [reflexivity|].
  assert (L : byte_len (t ++ 42 :: v) = (byte_len t + 1 + byte_len v)%nat) by (rewrite byte_len_app; cbn [byte_len]; change (utf8_len 42) with 1%nat; lia).
  symmetry. rewrite !bytes_length, L. apply slice_some; [lia|]. exists (t ++ [42]), []. rewrite app_nil_r, <- app_assoc, byte_len_app.
  cbn [byte_len app]. change (utf8_len 42) with 1%nat. repeat split; lia.
Qed.

Lemma slice_scalar s i j m : Forall scalar s -> slice s i j = Some m -> Forall scalar m.
Proof.
  intros F H. destruct (Nat.leb_spec i j) as [L|L].
  - apply slice_some in H as (a & t & -> & _); [|exact L]. apply Forall_app in F as [_ F]. now apply Forall_app in F as [F _].
  - unfold slice in H. destruct (drop_bytes s i); [|discriminate]. destruct (Nat.leb_spec i j); [lia|discriminate].
Qed.

Lemma bytes_inj a b : Forall scalar a -> Forall scalar b -> bytes a = bytes b -> a = b.
Proof. intros A B E. rewrite <- (decode_bytes a A), <- (decode_bytes b B). now rewrite E. Qed.

Lemma str_eqb_bytes a b : Forall scalar a -> Forall scalar b -> str_eqb (bytes a) (bytes b) = str_eqb a b.
Proof.
  intros A B. destruct (str_eqb_spec a b) as [-> |N].
  - now destruct (str_eqb_spec (bytes b) (bytes b)).
  - destruct (str_eqb_spec (bytes a) (bytes b)) as [E|]; [|reflexivity]. now apply bytes_inj in E.
Qed.

Lemma ascii_bytes a : Forall (fun c => c < 128) a -> bytes a = a.
Proof. induction 1 as [|c t H _ IH]; [reflexivity|]. rewrite bytes_cons, encode_ascii, IH by exact H. reflexivity. Qed.

Lemma ascii_scalar a : Forall (fun c => c < 128) a -> Forall scalar a.
Proof. apply List.Forall_impl. unfold scalar. lia. Qed.

Lemma hex2_ascii n : n < 256 -> Forall (fun c => c < 128) (hex2 n).
Proof.
  intros H. assert (D : forall x, x < 16 -> hex_digit x < 128) by (intros x X; unfold hex_digit; destruct (N.ltb_spec x 10); lia).
  unfold hex2. constructor; [|constructor; [|constructor]]; apply D; [|now apply N.mod_lt]. apply N.div_lt_upper_bound; lia.
Qed.

Lemma recognize_bytes {A} m (f : str -> A) t : m < 128 -> Forall scalar t ->
  byte_recognize m f (bytes t) = option_map (fun '(o, u) => (o, bytes u)) (recognize [m] f t).
Proof.
  intros M F. unfold byte_recognize, recognize. rewrite !slice_bytes, bytes_length.
  destruct (slice t 0 1) as [x|] eqn:E1; cbn [option_map]; [|reflexivity].
  assert (Fx : Forall scalar x) by now apply (slice_scalar t 0 1).
  assert (Fm : Forall scalar [m]) by (constructor; [unfold scalar; lia|constructor]).
  rewrite <- (ascii_bytes [m]) at 1 by (constructor; [exact M|constructor]). rewrite str_eqb_bytes by assumption.
  destruct (str_eqb x [m]); [|reflexivity]. destruct (slice t 1 3) as [y|] eqn:E2; cbn [option_map]; [|reflexivity].
  rewrite (decode_bytes y) by now apply (slice_scalar t 1 3).
  destruct (Nat.leb (byte_len t) 6); [|reflexivity]. destruct (slice t 3 6) as [z|]; cbn [option_map]; [|reflexivity].
  rewrite bytes_app, (ascii_bytes [m]) by (constructor; [exact M|constructor]). reflexivity.
Qed.

Lemma recognize_scalar {A} m (f : str -> A) t o u : m < 128 -> Forall scalar t -> recognize [m] f t = Some (o, u) -> Forall scalar u.
Proof.
  intros M F. unfold recognize. destruct (slice t 0 1) as [x|]; [|discriminate].
  destruct (str_eqb x [m]); [|now intros [= _ <-]]. destruct (slice t 1 3) as [y|]; [|discriminate].
  destruct (Nat.leb (byte_len t) 6); [|now intros [= _ <-]]. destruct (slice t 3 6) as [z|] eqn:E; [|discriminate].
  intros [= _ <-]. constructor; [unfold scalar; lia|]. now apply (slice_scalar t 3 6).
Qed.

(** Texts and valid byte sequences are the same: every text has an encoding of its own, which is valid, and every valid
    byte sequence is the encoding of a text. *)
Theorem c105_encoding :
  (forall s, Forall scalar s -> valid_utf8 (bytes s) /\ decode (bytes s) = s /\ List.length (bytes s) = utf8_bytes s) /\
  (forall b, valid_utf8 b -> exists s, Forall scalar s /\ bytes s = b).
Proof.
  split; [|exact valid_bytes]. intros s F. split; [now apply bytes_valid|]. split; [now apply decode_bytes|].
  rewrite bytes_length. apply byte_len_spec.
Qed.
Print Assumptions c105_encoding.

(** Slicing a text at byte offsets: the bytes between them, and a panic exactly if one of them is past the end or
    within a character, or they are in the wrong order. *)
Theorem c105_slices s i j :
  (forall t, slice s i j = Some t -> exists a b, s = a ++ t ++ b /\ List.length (bytes a) = i /\ List.length (bytes (a ++ t)) = j) /\
  byte_slice (bytes s) i j = option_map bytes (slice s i j).
Proof.
  split; [|apply slice_bytes]. intros t H. destruct (Nat.leb_spec i j) as [L|L].
  - apply slice_some in H as (a & b & -> & <- & E); [|exact L]. exists a, b. rewrite !bytes_length, byte_len_app. repeat split. lia.
  - unfold slice in H. destruct (drop_bytes s i); [|discriminate]. destruct (Nat.leb_spec i j); [lia|discriminate].
Qed.
Print Assumptions c105_slices.

(** A call on the bytes, with the byte offsets of the source, is the call on the text. *)
Theorem c105_same_call ovf now s p : Forall scalar s -> parse_bytes ovf now (bytes s) p = parse_sentence ovf now s p.
Proof.
  intros F. unfold parse_bytes, front, parse_sentence, parse_body. rewrite byte_split_spec.
  destruct (split_checksum s) as [body given] eqn:E. cbn [fst snd].
  assert (Fb : Forall scalar body /\ Forall scalar given).
  { unfold split_checksum in E. destruct (split_last 42 s) as [[t v]|] eqn:X; injection E as <- <-.
    - apply split_last_some in X as [-> _]. apply Forall_app in F as [F1 F2]. inversion F2; subst. now split.
    - split; [exact F|constructor]. }
  destruct Fb as [Fb Fg]. cbv zeta. rewrite (decode_bytes body Fb).
  change (fold_left (fun acc c => N.lxor acc (as_u8 c)) (skipn 1 body) 0) with (checksum body).
  pose proof (hex2_ascii _ (checksum_lt body)) as Hx. set (x := hex2 (checksum body)) in *.
  rewrite <- (ascii_bytes x Hx) at 1. rewrite str_eqb_bytes by (assumption || now apply ascii_scalar).
  change (@nil N) with (bytes []) at 1. rewrite str_eqb_bytes by (assumption || constructor).
  destruct (negb (str_eqb x given) && negb (str_eqb given [])).
  - rewrite <- (ascii_bytes x Hx) at 1. rewrite !decode_bytes by (assumption || now apply ascii_scalar). reflexivity.
  - rewrite find_bytes by reflexivity. destruct (before_first 44 body) as [t0|] eqn:E0; cbn [option_map].
    + pose proof E0 as X. apply before_first_some in X as (_ & rest & Eb).
      rewrite slice_bytes. rewrite Eb at 1. rewrite slice_start. cbn [option_map].
      assert (F0 : Forall scalar t0) by (rewrite Eb in Fb; now apply Forall_app in Fb as [Fb _]).
      rewrite recognize_bytes by (reflexivity || exact F0). change (lit "$") with [36]. change (lit "!") with [33].
      destruct (recognize [36] nav_of_talker t0) as [[nav t1]|] eqn:R1; cbn [option_map]; [|reflexivity].
      assert (F1 : Forall scalar t1) by now apply (recognize_scalar 36 nav_of_talker t0 nav t1).
      rewrite recognize_bytes by (reflexivity || exact F1).
      destruct (recognize [33] station_of_talker t1) as [[station t2]|] eqn:R2; cbn [option_map]; [|reflexivity].
      assert (F2 : Forall scalar t2) by now apply (recognize_scalar 33 station_of_talker t1 station t2).
      now rewrite !decode_bytes by assumption.
    + now rewrite decode_bytes by assumption.
Qed.
Print Assumptions c105_same_call.

(** The checksum that is compared is the one of the bytes, if all characters are ASCII. *)
Theorem c105_checksum_partial body : Forall (fun c => c < 128) body -> nmea_checksum body = byte_checksum (bytes body).
Proof.
  intros H. rewrite (ascii_bytes body H). unfold nmea_checksum, byte_checksum. do 2 f_equal.
  destruct H as [|c t _ H]; [reflexivity|]. cbn [tl]. induction H as [|d t Hd _ IH]; [reflexivity|]. cbn [map].
  rewrite IH, N.mod_small by lia. reflexivity.
Qed.
Print Assumptions c105_checksum_partial.

Lemma latin_differs c : 128 <= c < 256 -> N.lxor (192 + c / 64) (128 + c mod 64) <> c.
Proof.
  intros H. assert (I : In c (map N.of_nat (seq 128 128))).
  { apply in_map_iff. exists (N.to_nat c). split; [apply N2Nat.id|]. apply in_seq. lia. }
  assert (X : forallb (fun c => negb (N.lxor (192 + c / 64) (128 + c mod 64) =? c)) (map N.of_nat (seq 128 128)) = true) by (vm_compute; reflexivity).
  rewrite forallb_forall in X. specialize (X c I). now apply negb_true_iff, N.eqb_neq in X.
Qed.

(** A sentence with one character from 128 to 255 (e.g. an umlaut) and the checksum of its bytes is rejected. *)
Theorem c105_checksum_refuted ovf now p a c b :
  a <> [] -> Forall (fun x => x < 128) a -> 128 <= c < 256 -> Forall (fun x => x < 128) b ->
  let body := a ++ c :: b in
  parse_sentence ovf now (body ++ lit "*" ++ byte_checksum (bytes body)) p =
  (Err (CorruptedSentence (nmea_checksum body) (byte_checksum (bytes body))), p).
Proof.
  intros Na A C B body. apply c61_damaged_checksum_detected; [apply two_hex_no_star|unfold byte_checksum, two_hex; discriminate|].
  assert (E : bytes body = a ++ (192 + c / 64) :: (128 + c mod 64) :: b).
  { unfold body. rewrite bytes_app, bytes_cons, (ascii_bytes a A), (ascii_bytes b B). unfold encode_char.
    destruct (N.ltb_spec c 128); [lia|]. destruct (N.ltb_spec c 2048); [|lia]. reflexivity. }
  assert (S : forall l, Forall (fun x => x < 128) l -> map (fun x => x mod 256) l = l).
  { induction 1 as [|x l X _ IH]; [reflexivity|]. cbn [map]. rewrite IH, N.mod_small by lia. reflexivity. }
  unfold byte_checksum, nmea_checksum. rewrite E. unfold body. destruct a as [|x a]; [now destruct Na|]. inversion A; subst. cbn [app tl].
  rewrite map_app. cbn [map]. rewrite (S a) by assumption. rewrite (S b) by exact B. rewrite (N.mod_small c 256) by apply C. intros H.
  assert (Wa : Forall (fun x => x < 256) a) by (apply (List.Forall_impl (P := fun x => x < 128)); [intros; lia|assumption]).
  assert (Wb : Forall (fun x => x < 256) b) by (apply (List.Forall_impl (P := fun x => x < 128)); [intros; lia|assumption]).
  apply two_hex_inj in H.
  - rewrite !xor_all_middle in H. rewrite <- N.lxor_assoc in H.
    apply (f_equal (fun v => N.lxor v (xor_all (a ++ b)))) in H. rewrite !N.lxor_assoc, !N.lxor_nilpotent, !N.lxor_0_r in H.
    now apply (latin_differs c).
  - apply xor_all_lt. apply Forall_app. split; [exact Wa|]. split_parts c. constructor; [clear - C E0 B0; lia|]. constructor; [clear - B0; lia|exact Wb].
  - apply xor_all_lt. apply Forall_app. split; [exact Wa|]. constructor; [lia|exact Wb].
Qed.
Print Assumptions c105_checksum_refuted.

(** "é" takes the bytes C3 A9; a slice that would cut it panics; a sentence with it is read the same way from its bytes. *)
Example c105_example :
  let e := [233] in
  let body := lit "$GPVTG,1.5,T,,M,,N,,K," ++ e in
  bytes e = [195; 169] /\ valid_utf8 [195; 169] /\ ~ valid_utf8 [233] /\
  slice (lit "$" ++ e ++ lit "PGGA") 1 3 = Some e /\ slice (lit "$G" ++ e) 1 3 = None /\
  Forall scalar body /\ List.length body = 23%nat /\
  nmea_checksum body <> byte_checksum (bytes body) /\
  (exists d, fst (parse_sentence true ex_now body new_parser) = Ok (PsVtg d)) /\
  (exists x, fst (parse_sentence true ex_now (body ++ lit "*" ++ byte_checksum (bytes body)) new_parser) = Err (CorruptedSentence x (byte_checksum (bytes body)))).
Proof.
  cbv zeta. split; [reflexivity|]. split; [|split].
  - apply valid_2; [lia|unfold continuation; lia|constructor].
  - intros H. inversion H; subst. lia.
  - split; [reflexivity|]. split; [reflexivity|]. split; [|split; [|split; [|split]]].
    + apply List.Forall_forall. intros x X. left. apply N.ltb_lt. revert x X. apply forallb_forall. reflexivity.
    + reflexivity.
    + vm_compute. discriminate.
    + eexists. vm_compute. reflexivity.
    + eexists. vm_compute. reflexivity.
Qed.
