(** Facts about the string model. *)
From Coq Require Import List NArith ZArith Bool String Lia.
From Coq Require Decimal DecimalN.
From Verif Require Import Base Str SpecText.
Import ListNotations.
Open Scope N_scope.

Lemma str_eqb_spec a b : reflect (a = b) (str_eqb a b).
Proof.
  revert b. induction a as [|x a IH]; destruct b as [|y b]; cbn [str_eqb].
  - now constructor.
  - constructor; discriminate.
  - constructor; discriminate.
  - destruct (N.eqb_spec x y) as [->|Hn]; cbn [andb].
    + destruct (IH b) as [->|Hn]; constructor; [reflexivity|congruence].
    + constructor; congruence.
Qed.

Lemma str_eqb_refl a : str_eqb a a = true.
Proof. now destruct (str_eqb_spec a a). Qed.

Lemma str_eqb_eq a b : str_eqb a b = true <-> a = b.
Proof. destruct (str_eqb_spec a b); intuition congruence. Qed.

Lemma str_eqb_neq a b : str_eqb a b = false <-> a <> b.
Proof. destruct (str_eqb_spec a b); intuition congruence. Qed.

Lemma str_eqb_nil_r a : str_eqb a [] = match a with [] => true | _ => false end.
Proof. now destruct a. Qed.

(** Fields *)

Lemma join_cons f fs : fs <> [] -> join (f :: fs) = f ++ 44 :: join fs.
Proof. destruct fs; [congruence|reflexivity]. Qed.

Lemma split_on_nonempty sep s : split_on sep s <> [].
Proof.
  destruct s as [|c t]; cbn [split_on]; [discriminate|].
  destruct (c =? sep); [discriminate|]. destruct (split_on sep t); discriminate.
Qed.

Lemma split_on_app sep f s :
  ~ In sep f -> split_on sep (f ++ sep :: s) = f :: split_on sep s.
Proof.
  induction f as [|c f IH]; intros H; cbn [app split_on].
  - now rewrite N.eqb_refl.
  - cbn [In] in H. destruct (N.eqb_spec c sep) as [->|_]; [tauto|].
    rewrite IH by tauto. reflexivity.
Qed.

Lemma split_on_none sep f : ~ In sep f -> split_on sep f = [f].
Proof.
  induction f as [|c f IH]; intros H; cbn [split_on]; [reflexivity|].
  cbn [In] in H. destruct (N.eqb_spec c sep) as [->|_]; [tauto|].
  rewrite IH by tauto. reflexivity.
Qed.

Lemma split_on_join fs : fs <> [] -> Forall plain fs -> split_on 44 (join fs) = fs.
Proof.
  induction fs as [|f fs IH]; intros Hn Hp; [congruence|].
  inversion Hp as [|? ? Hf Hfs]; subst.
  destruct fs as [|g fs]; [now apply split_on_none|].
  rewrite join_cons by discriminate. rewrite split_on_app by exact Hf.
  rewrite IH by (discriminate || assumption). reflexivity.
Qed.

Lemma split_on_plain s : Forall plain (split_on 44 s).
Proof.
  induction s as [|c t IH]; cbn [split_on].
  - constructor; [intros []|constructor].
  - destruct (N.eqb_spec c 44) as [->|Hc].
    + constructor; [intros []|assumption].
    + destruct (split_on 44 t) as [|w ws].
      * constructor; [|constructor]. intros [->|[]]. congruence.
      * inversion IH; subst. constructor; [|assumption].
        intros [->|Hin]; [congruence|]. now apply H1.
Qed.

Lemma join_split_on s : join (split_on 44 s) = s.
Proof.
  induction s as [|c t IH]; cbn [split_on]; [reflexivity|].
  destruct (N.eqb_spec c 44) as [->|Hc].
  - rewrite join_cons by apply split_on_nonempty. now rewrite IH.
  - pose proof (split_on_nonempty 44 t) as Hn.
    destruct (split_on 44 t) as [|w ws]; [congruence|].
    rewrite <- IH. destruct ws; reflexivity.
Qed.

Lemma split_on_has_fields s : has_fields s (split_on 44 s).
Proof.
  split; [apply split_on_nonempty|]. split; [apply split_on_plain|]. symmetry; apply join_split_on.
Qed.

Lemma has_fields_split s fs : has_fields s fs <-> fs = split_on 44 s.
Proof.
  split.
  - intros (Hn & Hp & ->). symmetry. now apply split_on_join.
  - intros ->. apply split_on_has_fields.
Qed.

(** Text before the first separator *)

Lemma before_first_app sep a b : ~ In sep a -> before_first sep (a ++ sep :: b) = Some a.
Proof.
  induction a as [|c a IH]; intros H; cbn [app before_first].
  - now rewrite N.eqb_refl.
  - cbn [In] in H. destruct (N.eqb_spec c sep); [tauto|]. rewrite IH by tauto. reflexivity.
Qed.

Lemma before_first_none sep a : before_first sep a = None <-> ~ In sep a.
Proof.
  induction a as [|c a IH]; cbn [before_first In]; [tauto|].
  destruct (N.eqb_spec c sep) as [->|Hc].
  - split; [discriminate|tauto].
  - destruct (before_first sep a); cbn [option_map].
    + split; [discriminate|]. intros H. exfalso. assert (~ In sep a) by tauto.
      apply IH in H0. discriminate.
    + intuition.
Qed.

Lemma before_first_some sep s a :
  before_first sep s = Some a -> ~ In sep a /\ exists b, s = a ++ sep :: b.
Proof.
  revert a. induction s as [|c s IH]; intros a; cbn [before_first]; [discriminate|].
  destruct (N.eqb_spec c sep) as [->|Hc].
  - intros [= <-]. split; [intros []|]. now exists s.
  - destruct (before_first sep s) as [a'|]; cbn [option_map]; [|discriminate].
    intros [= <-]. destruct (IH a' eq_refl) as (Hn & b & ->).
    split; [cbn [In]; intuition|]. now exists b.
Qed.

Lemma before_first_split s t : before_first 44 s = Some t -> nth 0 (split_on 44 s) [] = t.
Proof.
  intros H. apply before_first_some in H as (Hn & b & ->).
  now rewrite split_on_app.
Qed.

(** Text around the last separator *)

Lemma split_last_none sep s : split_last sep s = None <-> ~ In sep s.
Proof.
  induction s as [|c s IH]; cbn [split_last In]; [tauto|].
  destruct (split_last sep s) as [[a b]|].
  - split; [discriminate|]. intros H. assert (~ In sep s) by tauto.
    apply IH in H0. discriminate.
  - destruct (N.eqb_spec c sep) as [->|Hc].
    + split; [discriminate|tauto].
    + split; [|reflexivity]. intros _ [H|H]; [congruence|]. now apply IH.
Qed.

Lemma split_last_app sep a b : ~ In sep b -> split_last sep (a ++ sep :: b) = Some (a, b).
Proof.
  intros Hb. induction a as [|c a IH]; cbn [split_last app].
  - apply split_last_none in Hb. rewrite Hb, N.eqb_refl. reflexivity.
  - now rewrite IH.
Qed.

Lemma split_last_some sep s a b :
  split_last sep s = Some (a, b) -> s = a ++ sep :: b /\ ~ In sep b.
Proof.
  revert a b. induction s as [|c s IH]; intros a b; cbn [split_last]; [discriminate|].
  destruct (split_last sep s) as [[a' b']|] eqn:E.
  - intros [= <- <-]. destruct (IH _ _ eq_refl) as [-> H]. now split.
  - destruct (N.eqb_spec c sep) as [->|Hc]; [|discriminate].
    intros [= <- <-]. split; [reflexivity|]. now apply split_last_none.
Qed.

(** Byte lengths and slices *)

Lemma byte_len_spec s : byte_len s = utf8_bytes s.
Proof.
  unfold utf8_bytes. induction s as [|c s IH]; [reflexivity|].
  cbn [byte_len map list_sum fold_right]. rewrite IH. reflexivity.
Qed.

Lemma utf8_len_pos c : (1 <= utf8_len c <= 4)%nat.
Proof.
  unfold utf8_len. destruct (c <? 128), (c <? 2048), (c <? 65536); lia.
Qed.

Lemma byte_len_app a b : byte_len (a ++ b) = (byte_len a + byte_len b)%nat.
Proof. induction a as [|c a IH]; cbn [byte_len app]; lia. Qed.

Lemma byte_len_nil a : byte_len a = 0%nat -> a = [].
Proof. destruct a as [|c a]; [reflexivity|]. cbn [byte_len]. pose proof (utf8_len_pos c). lia. Qed.

Lemma drop_bytes_some s k t :
  drop_bytes s k = Some t <-> exists a, s = a ++ t /\ byte_len a = k.
Proof.
  revert k t. induction s as [|c s IH]; intros k t.
  - destruct k; cbn [drop_bytes].
    + split; [intros [= <-]; now exists []|]. intros (a & Ha & _).
      symmetry in Ha. apply app_eq_nil in Ha as [_ ->]. reflexivity.
    + split; [discriminate|]. intros (a & Ha & Hl).
      symmetry in Ha. apply app_eq_nil in Ha as [-> _]. discriminate.
  - destruct k as [|k]; cbn [drop_bytes].
    + split; [intros [= <-]; now exists []|]. intros (a & Ha & Hl).
      apply byte_len_nil in Hl. subst. now rewrite Ha.
    + destruct (Nat.leb_spec (utf8_len c) (S k)) as [Hle|Hgt].
      * rewrite IH. split.
        -- intros (a & -> & Hl). exists (c :: a). split; [reflexivity|].
           cbn [byte_len]. lia.
        -- intros (a & Ha & Hl). destruct a as [|d a]; [discriminate|].
           injection Ha as <- ->. exists a. split; [reflexivity|]. cbn [byte_len] in Hl. lia.
      * split; [discriminate|]. intros (a & Ha & Hl). destruct a as [|d a]; [discriminate|].
        injection Ha as <- ->. cbn [byte_len] in Hl. lia.
Qed.

Lemma take_bytes_some s k a :
  take_bytes s k = Some a <-> byte_len a = k /\ exists t, s = a ++ t.
Proof.
  revert k a. induction s as [|c s IH]; intros k a.
  - destruct k; cbn [take_bytes].
    + split.
      * intros [= <-]. split; [reflexivity|]. now exists [].
      * intros (Hl & _). apply byte_len_nil in Hl. now subst.
    + split; [discriminate|]. intros (Hl & t & Ha).
      symmetry in Ha. apply app_eq_nil in Ha as [-> _]. discriminate.
  - destruct k as [|k]; cbn [take_bytes].
    + split.
      * intros [= <-]. split; [reflexivity|]. now exists (c :: s).
      * intros (Hl & _). apply byte_len_nil in Hl. now subst.
    + destruct (Nat.leb_spec (utf8_len c) (S k)) as [Hle|Hgt].
      * split.
        -- destruct (take_bytes s (S k - utf8_len c)) as [a'|] eqn:E; [|discriminate].
           intros [= <-]. apply IH in E as (Hl & t & ->).
           split; [cbn [byte_len]; lia|]. now exists t.
        -- intros (Hl & t & Ha). destruct a as [|d a]; [discriminate|].
           injection Ha as <- ->. cbn [byte_len] in Hl.
           assert (E : take_bytes (a ++ t) (S k - utf8_len c) = Some a).
           { apply IH. split; [lia|]. now exists t. }
           now rewrite E.
      * split; [discriminate|]. intros (Hl & t & Ha). destruct a as [|d a]; [discriminate|].
        injection Ha as <- ->. cbn [byte_len] in Hl. lia.
Qed.

Lemma slice_some s i j m :
  (i <= j)%nat ->
  slice s i j = Some m <-> exists a t, s = a ++ m ++ t /\ byte_len a = i /\ byte_len m = (j - i)%nat.
Proof.
  intros Hij. unfold slice. apply Nat.leb_le in Hij. split.
  - destruct (drop_bytes s i) as [r|] eqn:E; [|discriminate]. rewrite Hij.
    intros H. apply take_bytes_some in H as (Hl & t & ->).
    apply drop_bytes_some in E as (a & -> & Ha). now exists a, t.
  - intros (a & t & -> & Ha & Hm).
    assert (E : drop_bytes (a ++ m ++ t) i = Some (m ++ t)) by (apply drop_bytes_some; now exists a).
    rewrite E, Hij. apply take_bytes_some. split; [assumption|]. now exists t.
Qed.

Lemma ascii_byte_len s : ascii s -> byte_len s = List.length s.
Proof.
  induction 1 as [|c s Hc _ IH]; [reflexivity|]. cbn [byte_len List.length]. rewrite IH.
  unfold utf8_len. apply N.ltb_lt in Hc. now rewrite Hc.
Qed.

Lemma byte_len_ge s : (List.length s <= byte_len s)%nat.
Proof.
  induction s as [|c s IH]; cbn [byte_len List.length]; [lia|]. pose proof (utf8_len_pos c). lia.
Qed.

(** Decimal text *)

Lemma uint_chars_digits d : Forall (fun c => 48 <= c <= 57) (uint_chars d).
Proof. induction d; cbn [uint_chars]; repeat constructor; try lia; assumption. Qed.

Lemma dec_digits n : Forall (fun c => 48 <= c <= 57) (dec n).
Proof. apply uint_chars_digits. Qed.

Lemma dec_nonempty n : dec n <> [].
Proof.
  unfold dec. pose proof (DecimalN.Unsigned.of_to n) as H.
  destruct n; [cbn; discriminate|].
  destruct (N.to_uint (N.pos p)) eqn:E; cbn [uint_chars]; try discriminate.
Qed.

Lemma uint_chars_inj d e : uint_chars d = uint_chars e -> d = e.
Proof.
  revert e. induction d; destruct e; cbn [uint_chars]; intros H; try discriminate; try reflexivity;
    injection H as H; f_equal; auto.
Qed.

Lemma dec_inj a b : dec a = dec b -> a = b.
Proof.
  intros H. apply uint_chars_inj in H. rewrite <- (DecimalN.Unsigned.of_to a), H.
  apply DecimalN.Unsigned.of_to.
Qed.

Lemma digits_plain s : Forall (fun c => 48 <= c <= 57) s -> plain s.
Proof.
  intros H Hin. rewrite Forall_forall in H. apply H in Hin. lia.
Qed.

Lemma dec_plain n : plain (dec n).
Proof. apply digits_plain, dec_digits. Qed.

Lemma is_digit_spec c : is_digit c = true <-> 48 <= c <= 57.
Proof. unfold is_digit. rewrite andb_true_iff, !N.leb_le. tauto. Qed.

(** Value of numerals *)

Definition num_from (v : N) (ds : str) : N := fold_left (fun v d => 10 * v + (d - 48)) ds v.

Lemma num_from_ge v ds : v <= num_from v ds.
Proof.
  revert v. induction ds as [|d ds IH]; intros v; cbn [num_from fold_left]; [lia|].
  specialize (IH (10 * v + (d - 48))). unfold num_from in IH. lia.
Qed.

Lemma digits_acc_spec max acc s :
  acc <= max ->
  digits_acc max acc s =
  if forallb is_digit s && (num_from acc s <=? max) then Some (num_from acc s) else None.
Proof.
  revert acc. induction s as [|c s IH]; intros acc Ha; cbn [digits_acc forallb num_from fold_left].
  - apply N.leb_le in Ha. now rewrite Ha.
  - destruct (is_digit c); cbn [andb]; [|reflexivity].
    replace (acc * 10 + (c - 48)) with (10 * acc + (c - 48)) by lia.
    destruct (N.leb_spec (10 * acc + (c - 48)) max) as [Hle|Hgt].
    + rewrite IH by assumption. reflexivity.
    + pose proof (num_from_ge (10 * acc + (c - 48)) s) as Hge. unfold num_from in *.
      destruct (N.leb_spec (fold_left (fun v d => 10 * v + (d - 48)) s (10 * acc + (c - 48))) max); [lia|].
      now rewrite andb_false_r.
Qed.

Lemma forallb_digits s : forallb is_digit s = true <-> Forall (fun d => 48 <= d <= 57) s.
Proof.
  rewrite forallb_forall, Forall_forall. split; intros H x Hx; apply is_digit_spec; auto.
Qed.

Lemma digits_acc_some max s v :
  digits_acc max 0 s = Some v <->
  Forall (fun d => 48 <= d <= 57) s /\ numeral_value s = v /\ v <= max.
Proof.
  rewrite digits_acc_spec by lia. change (numeral_value s) with (num_from 0 s).
  destruct (forallb is_digit s) eqn:E; cbn [andb].
  - apply forallb_digits in E. destruct (N.leb_spec (num_from 0 s) max).
    + split; [intros [= <-]; tauto|]. intros (_ & -> & _). reflexivity.
    + split; [discriminate|]. intros (_ & <- & ?). lia.
  - split; [discriminate|]. intros (H & _). apply forallb_digits in H. congruence.
Qed.

Lemma parse_uint_spec max s v : parse_uint max s = Some v <-> denotes s v /\ v <= max.
Proof.
  unfold parse_uint, denotes, is_numeral. split.
  - destruct s as [|c t]; [discriminate|]. destruct (N.eqb_spec c 43) as [->|Hc].
    + destruct t as [|d t]; [discriminate|]. intros H. apply digits_acc_some in H as (Hd & Hv & Hm).
      split; [|assumption]. exists (d :: t). repeat split; auto. discriminate.
    + intros H. apply digits_acc_some in H as (Hd & Hv & Hm).
      split; [|assumption]. exists (c :: t). repeat split; auto. discriminate.
  - intros ((ds & Hs & (Hn & Hd) & Hv) & Hm).
    assert (E : digits_acc max 0 ds = Some v) by now apply digits_acc_some.
    destruct Hs as [-> | ->].
    + destruct ds as [|c t]; [congruence|]. destruct (N.eqb_spec c 43) as [->|Hc]; [|assumption].
      inversion Hd; subst. lia.
    + cbn [N.eqb]. rewrite Pos.eqb_refl. destruct ds; [congruence|assumption].
Qed.

Lemma denotes_unique s v w : denotes s v -> denotes s w -> v = w.
Proof.
  intros (ds & Hs & (Hn & Hd) & Hv) (es & Ht & (Hm & He) & Hw).
  assert (ds = es); [|congruence].
  destruct Hs as [-> | ->], Ht as [Ht | Ht]; try congruence.
  - subst ds. inversion Hd; lia.
  - subst es. inversion He; lia.
Qed.

Lemma pos_of_uint_acc_num d p : Npos (Pos.of_uint_acc d p) = num_from (Npos p) (uint_chars d).
Proof.
  revert p. induction d; intros p; cbn [Pos.of_uint_acc uint_chars num_from fold_left];
    [reflexivity|..]; rewrite IHd; unfold num_from; f_equal; lia.
Qed.

Lemma of_uint_num d : N.of_uint d = num_from 0 (uint_chars d).
Proof.
  unfold N.of_uint. induction d; cbn [Pos.of_uint uint_chars num_from fold_left];
    try reflexivity; try (rewrite pos_of_uint_acc_num; reflexivity).
  exact IHd.
Qed.

Lemma dec_value n : numeral_value (dec n) = n.
Proof.
  unfold dec. change (num_from 0 (uint_chars (N.to_uint n)) = n).
  rewrite <- of_uint_num. apply DecimalN.Unsigned.of_to.
Qed.

Lemma dec_denotes n : denotes (dec n) n.
Proof.
  exists (dec n). split; [now left|]. split; [|apply dec_value].
  split; [apply dec_nonempty|apply dec_digits].
Qed.

Lemma parse_uint_dec max n : n <= max -> parse_uint max (dec n) = Some n.
Proof. intros H. apply parse_uint_spec. split; [apply dec_denotes|assumption]. Qed.
