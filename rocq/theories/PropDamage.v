(** C85, C86: lost and inserted characters, cut-off ends, sentences that ran together. *)
From stdpp Require Import gmap.
From Coq Require Import List NArith ZArith Bool String Lia.
From Verif Require Import Base Str F64 Chrono Types Util AisMod Vdm Gnss Parser
  SpecText SpecResult SpecAis SpecTime SpecState SpecDamage
  StrFacts FrontFacts CallFacts ResultFacts BitFacts VdmFacts LayoutFacts StateFacts
  PropFront PropBits.
Import ListNotations.
Open Scope N_scope.
Local Opaque pick_string pick_u64 pick_i64 pick_eta parse_f64 be_value.

(** ** The checksum as a sum *)

Definition low (l : str) : N := xor_all (map (fun c => c mod 256) l).

Lemma low_app a b : low (a ++ b) = N.lxor (low a) (low b).
Proof.
  unfold low. rewrite map_app. induction (map _ a) as [|x l IH]; [reflexivity|].
  cbn [app xor_all fold_right]. fold (xor_all (l ++ map (fun c => c mod 256) b)). fold (xor_all l). rewrite IH.
  now rewrite N.lxor_assoc.
Qed.

Lemma low_cons c l : low (c :: l) = N.lxor (c mod 256) (low l).
Proof. reflexivity. Qed.

Lemma low_lt l : low l < 256.
Proof. apply xor_all_lt, mod_list_lt. Qed.

Lemma checksum_low f r : nmea_checksum (f :: r) = two_hex (low r).
Proof. reflexivity. Qed.

Lemma checksum_eq f r f' r' : nmea_checksum (f :: r) = nmea_checksum (f' :: r') <-> low r = low r'.
Proof.
  rewrite !checksum_low. split; [|congruence]. apply two_hex_inj; apply low_lt.
Qed.

Lemma lxor_cancel a b : N.lxor a b = b <-> a = 0.
Proof.
  split; intros H; [|subst; apply N.lxor_0_l].
  apply (f_equal (fun x => N.lxor x b)) in H. now rewrite N.lxor_assoc, N.lxor_nilpotent, N.lxor_0_r in H.
Qed.

Lemma wrong_checksum ovf now p f r f' r' :
  low r <> low r' ->
  parse_sentence ovf now ((f' :: r') ++ lit "*" ++ nmea_checksum (f :: r)) p =
  (Err (CorruptedSentence (nmea_checksum (f' :: r')) (nmea_checksum (f :: r))), p).
Proof.
  intros H. apply parse_sentence_bad.
  - right. split; [reflexivity|]. apply nmea_checksum_no_star.
  - intros [E|E]; [discriminate|]. apply (proj1 (checksum_eq f r f' r')) in E. contradiction.
Qed.

(** ** C85: lost and inserted characters *)

(** A sentence that lost one character, the first included, is rejected. *)
Theorem c85_lost_character ovf now p first before c after :
  c mod 256 <> 0 ->
  parse_sentence ovf now ((first :: before ++ after) ++ lit "*" ++ nmea_checksum (first :: before ++ c :: after)) p =
  (Err (CorruptedSentence (nmea_checksum (first :: before ++ after)) (nmea_checksum (first :: before ++ c :: after))), p) /\
  parse_sentence ovf now ((c :: after) ++ lit "*" ++ nmea_checksum (first :: c :: after)) p =
  (Err (CorruptedSentence (nmea_checksum (c :: after)) (nmea_checksum (first :: c :: after))), p).
Proof.
  intros H. split; apply wrong_checksum.
  - rewrite !low_app, low_cons, <- N.lxor_assoc, (N.lxor_comm (low before)), N.lxor_assoc. now rewrite lxor_cancel.
  - rewrite low_cons. now rewrite lxor_cancel.
Qed.
Print Assumptions c85_lost_character.

(** So is one with one more character. *)
Theorem c85_inserted_character ovf now p first before c after :
  c mod 256 <> 0 ->
  parse_sentence ovf now ((first :: before ++ c :: after) ++ lit "*" ++ nmea_checksum (first :: before ++ after)) p =
  (Err (CorruptedSentence (nmea_checksum (first :: before ++ c :: after)) (nmea_checksum (first :: before ++ after))), p) /\
  (first mod 256 <> 0 ->
   parse_sentence ovf now ((c :: first :: after) ++ lit "*" ++ nmea_checksum (first :: after)) p =
   (Err (CorruptedSentence (nmea_checksum (c :: first :: after)) (nmea_checksum (first :: after))), p)).
Proof.
  intros H. split; [|intros H']; apply wrong_checksum; intros E; symmetry in E; revert E.
  - rewrite !low_app, low_cons, <- N.lxor_assoc, (N.lxor_comm (low before)), N.lxor_assoc. now rewrite lxor_cancel.
  - rewrite low_cons. now rewrite lxor_cancel.
Qed.
Print Assumptions c85_inserted_character.

(** A sentence cut between the two digits of its checksum is rejected. *)
Theorem c85_cut_in_checksum ovf now p body h l :
  sent body = body ++ lit "*" ++ [h; l] ->
  parse_sentence ovf now (body ++ lit "*" ++ [h]) p =
  (Err (CorruptedSentence (nmea_checksum body) [h]), p).
Proof.
  intros H. unfold sent in H. apply app_inv_head in H. cbn [app lit] in H.
  assert (E : nmea_checksum body = [h; l]) by (apply app_inv_head in H; exact H).
  apply parse_sentence_bad.
  - right. split; [reflexivity|]. intros [X|[]]. apply (nmea_checksum_no_star body). rewrite E, X. now left.
  - intros [X|X]; [discriminate X|]. rewrite E in X. discriminate X.
Qed.
Print Assumptions c85_cut_in_checksum.

(** ** C85: a cut before the checksum *)

Lemma armor_app a b : Nat.divide 6 (List.length a) -> armor (a ++ b) = armor a ++ armor b.
Proof.
  intros (k & Hk). revert a Hk. induction k as [|k IH]; intros a Hk.
  - destruct a; [reflexivity|discriminate].
  - do 6 (destruct a as [|? a]; [discriminate|]). cbn [app armor]. f_equal. apply IH. cbn [List.length] in Hk. lia.
Qed.

Lemma window_past bits i n : (List.length bits <= i)%nat -> window bits i n = repeat false n.
Proof.
  intros H. revert i H. induction n as [|n IH]; intros i H; [reflexivity|]. rewrite window_succ, nth_overflow by exact H.
  cbn [repeat]. f_equal. apply IH. lia.
Qed.

Lemma armor_no_star bits : ~ In 42 (armor bits).
Proof.
  enough (H : armored (armor bits)).
  { intros X. unfold armored in H. rewrite List.Forall_forall in H. apply H in X.
    assert (E : existsb (N.eqb 42) armor_alphabet = true) by (apply existsb_exists; exists 42; auto).
    vm_compute in E. discriminate. }
  remember (List.length bits) as n eqn:En. revert bits En. induction n as [n IH] using lt_wf_ind. intros bits ->.
  destruct bits as [|b0 [|b1 [|b2 [|b3 [|b4 [|b5 rest]]]]]]; cbn [armor]; [constructor| | | | | |];
    (constructor; [apply armor_char_in; reflexivity|]); try constructor.
  eapply IH; [|reflexivity]. cbn. lia.
Qed.

Lemma text_one_fragment tt fff channel payload :
  utf8_bytes tt = 2%nat -> plain tt -> ~ In 42 tt -> fff = lit "VDM" \/ fff = lit "VDO" -> plain channel ->
  ~ In 42 channel -> plain payload -> ~ In 42 payload ->
  one_fragment (lit "!" ++ tt ++ fff ++ lit ",1,1,," ++ channel ++ lit "," ++ payload) tt fff payload.
Proof.
  intros Ht Hp Hst Hf Hch Hsc Hpp Hsp. exists (lit "1"), (lit "1"), [], channel, 1. split.
  - exists []. split; [|now split].
    exists (lit "!" ++ tt ++ fff ++ lit ",1,1,," ++ channel ++ lit "," ++ payload), [].
    split; [left; split; [|split; reflexivity]|].
    { rewrite !in_app_iff. intros [X|[X|[X|[X|[X|[X|X]]]]]]; try contradiction.
      - vm_compute in X. intuition discriminate.
      - destruct Hf as [-> | ->]; vm_compute in X; intuition discriminate.
      - vm_compute in X. intuition discriminate.
      - vm_compute in X. intuition discriminate. }
    split; [now left|].
    split; [discriminate|]. split.
    + assert (plain fff) by (destruct Hf as [-> | ->]; now apply plain_lit_dec).
      repeat constructor; try (now apply plain_lit_dec); try assumption.
      apply plain_app; [now apply plain_lit_dec|]. now apply plain_app.
    + cbn [join]. rewrite <- !app_assoc. reflexivity.
  - split; [exists (lit "1")|split; [exists (lit "1")|lia]];
      (split; [now left|split; [|reflexivity]]); (split; [discriminate|]);
      (constructor; [split; intros X; discriminate X|constructor]).
Qed.

(** Every class A position report whose end is lost after 7 to 10 characters of the payload is reported
    as a position report of the right vessel at zero degrees north, zero degrees east. *)
Theorem c85_cut_refuted ovf now p tt fff channel bits k :
  utf8_bytes tt = 2%nat -> plain tt -> ~ In 42 tt -> fff = lit "VDM" \/ fff = lit "VDO" ->
  plain channel -> ~ In 42 channel -> In (bits_at bits 0 6) [1; 2; 3] ->
  (7 <= k <= 10)%nat -> (6 * k <= List.length bits)%nat ->
  exists received lost d,
    encode_sentence tt fff channel bits = received ++ lost /\ (4 <= List.length lost)%nat /\
    received = lit "!" ++ tt ++ fff ++ lit ",1,1,," ++ channel ++ lit "," ++ firstn k (armor bits) /\
    parse_sentence ovf now received p = (Ok (PsVesselDynamicData d), p) /\
    vdd_mmsi d = bits_at bits 8 30 /\
    vdd_latitude d = Some (f64_of_Z 0) /\ vdd_longitude d = Some (f64_of_Z 0).
Proof.
  intros Ht Hp Hst Hf Hch Hsc Hty Hk Hl.
  set (a := firstn (6 * k) bits). set (b := skipn (6 * k) bits).
  assert (Eb : bits = a ++ b) by (symmetry; apply firstn_skipn).
  assert (La : List.length a = (6 * k)%nat) by (apply firstn_length_le; exact Hl).
  assert (Ea : armor bits = armor a ++ armor b) by (rewrite Eb; apply armor_app; exists k; lia).
  assert (Lk : List.length (armor a) = k).
  { clearbody a. clear - La. revert k La. induction a as [a IH] using (induction_ltof1 _ (@List.length bool)). unfold ltof in IH. intros k La.
    destruct a as [|b0 [|b1 [|b2 [|b3 [|b4 [|b5 rest]]]]]]; cbn [List.length] in La; try lia.
    - cbn. lia.
    - cbn [armor List.length]. destruct k as [|k]; [lia|]. f_equal. apply IH; [cbn; lia|lia]. }
  assert (Ek : firstn k (armor bits) = armor a).
  { rewrite Ea, <- Lk at 1. rewrite firstn_app, Nat.sub_diag, firstn_all. apply app_nil_r. }
  pose proof (text_one_fragment tt fff channel (armor a) Ht Hp Hst Hf Hch Hsc (armor_plain a) (armor_no_star a)) as Hs.
  set (received := lit "!" ++ tt ++ fff ++ lit ",1,1,," ++ channel ++ lit "," ++ firstn k (armor bits)).
  assert (Er : received = lit "!" ++ tt ++ fff ++ lit ",1,1,," ++ channel ++ lit "," ++ armor a)
    by (unfold received; now rewrite Ek).
  assert (W0 : bits_at a 0 6 = bits_at bits 0 6).
  { unfold bits_at. rewrite Eb. now rewrite window_app_l by lia. }
  assert (W8 : bits_at a 8 30 = bits_at bits 8 30).
  { unfold bits_at. rewrite Eb. now rewrite window_app_l by lia. }
  exists received. eexists. eexists. split; [|split; [|split; [reflexivity|split]]].
  - unfold encode_sentence. cbv zeta. set (sum := nmea_checksum _). unfold received. rewrite Ek, Ea.
    rewrite <- !app_assoc. reflexivity.
  - rewrite !app_length. cbn. lia.
  - rewrite Er, (one_fragment_bits _ _ _ _ _ _ _ Hs). unfold dispatch_message. rewrite pick_u64_spec by lia.
    rewrite bits_at_value, W0. cbn [In] in Hty. destruct Hty as [<-|[<-|[<-|[]]]]; reflexivity.
  - cbn [vdd_mmsi vdd_latitude vdd_longitude]. split; [|split].
    + rewrite <- W8. rewrite pick_u64_spec by lia. rewrite bits_at_value. apply (small_u32 30); [|lia].
      pose proof (be_value_lt (window a 8 30)) as B. rewrite window_length in B. rewrite bits_at_value in B. exact B.
    + unfold latitude_at, coord. rewrite (pick_i64_spec a 89 26) by lia. rewrite window_past by lia. vm_compute. reflexivity.
    + unfold longitude_at, coord. rewrite (pick_i64_spec a 61 27) by lia. rewrite window_past by lia. vm_compute. reflexivity.
Qed.
Print Assumptions c85_cut_refuted.

Example c85_example :
  let bits := layout_bits [U 6 1; U 2 0; U 30 371798000; U 4 0; I 8 (-127); U 10 123; F true; I 28 (-74037230);
    I 27 29028980; U 12 2240; U 9 215; U 6 33; U 2 0; U 3 0; F false; U 19 34017] in
  encode_sentence (lit "AI") (lit "VDM") (lit "A") bits = lit "!AIVDM,1,1,,A,15RTgt0PAso;90TKcjM8h6g208CQ,0*4A" /\
  sent (lit "!AIVDM,1,1,,A,15RTgt0PAso;90TKcjM8h6g208CQ,0") = lit "!AIVDM,1,1,,A,15RTgt0PAso;90TKcjM8h6g208CQ,0*4A" /\
  In (bits_at bits 0 6) [1; 2; 3] /\ (6 * 10 <= List.length bits)%nat /\
  exists d, parse_sentence true ex_now (lit "!AIVDM,1,1,,A,15RTgt0PAs") new_parser = (Ok (PsVesselDynamicData d), new_parser) /\
    vdd_mmsi d = 371798000 /\ vdd_latitude d = Some (f64_of_Z 0).
Proof.
  cbv zeta. split; [vm_compute; reflexivity|]. split; [vm_compute; reflexivity|]. split; [left; vm_compute; reflexivity|].
  split; [apply Nat.leb_le; vm_compute; reflexivity|]. eexists. split; [vm_compute; reflexivity|]. split; reflexivity.
Qed.

(** GNSS sentences lose digits the same way: 022.4 knots become 2 knots. *)
Theorem c85_gnss_cut_refuted :
  exists received lost a b, sent (lit "$GPRMC,225446,A,4916.45,N,12311.12,W,022.4,054.7,191194,020.3,E") = received ++ lost /\
    parse_sentence true ex_now (received ++ lost) new_parser = (Ok (PsRmc a), new_parser) /\
    parse_sentence true ex_now received new_parser = (Ok (PsRmc b), new_parser) /\
    rmc_sog_knots a = Some (f64_of_dec false 224 (-1)) /\ rmc_sog_knots b = Some (f64_of_Z 2).
Proof.
  exists (lit "$GPRMC,225446,A,4916.45,N,12311.12,W,02"), (lit "2.4,054.7,191194,020.3,E*69").
  eexists. eexists. split; [vm_compute; reflexivity|]. split; [vm_compute; reflexivity|]. split; [vm_compute; reflexivity|].
  split; vm_compute; reflexivity.
Qed.
Print Assumptions c85_gnss_cut_refuted.

(** ** C86 *)

Lemma all_bytes (P : N -> bool) : forallb P (map N.of_nat (seq 0 256)) = true -> forall n, n < 256 -> P n = true.
Proof.
  intros H n Hn. rewrite forallb_forall in H. apply H. apply in_map_iff. exists (N.to_nat n). split; [lia|].
  apply in_seq. lia.
Qed.

Definition carried (x : N) (between : str) (start : N) : N :=
  low (lit "*" ++ two_hex x ++ between ++ [start]).

Lemma together_body f r between start b :
  sent (f :: r) ++ between ++ sent (start :: b) =
  (f :: r ++ lit "*" ++ two_hex (low r) ++ between ++ start :: b) ++ lit "*" ++ nmea_checksum (start :: b).
Proof. unfold sent. rewrite checksum_low. cbn [app]. rewrite <- !app_assoc. reflexivity. Qed.

Lemma together_low r between start b :
  low (r ++ lit "*" ++ two_hex (low r) ++ between ++ start :: b) = low b <->
  N.lxor (low r) (carried (low r) between start) = 0.
Proof.
  unfold carried. replace (r ++ lit "*" ++ two_hex (low r) ++ between ++ start :: b)
    with ((r ++ lit "*" ++ two_hex (low r) ++ between ++ [start]) ++ b) by (rewrite <- !app_assoc; reflexivity).
  rewrite low_app, lxor_cancel. now rewrite low_app.
Qed.

Lemma unnoticed_spec between start x : In between separators -> start = 33 \/ start = 36 -> x < 256 ->
  N.lxor x (carried x between start) = 0 <-> In (two_hex x) (unnoticed between start).
Proof.
  intros Hb Hs Hx.
  assert (D : forall l : list str, In (two_hex x) l <-> existsb (str_eqb (two_hex x)) l = true).
  { intros l. rewrite existsb_exists. split; [intros H; exists (two_hex x); split; [exact H|apply str_eqb_refl]|].
    intros (y & Hy & E). destruct (str_eqb_spec (two_hex x) y) as [->|]; [exact Hy|discriminate]. }
  rewrite D. rewrite <- N.eqb_eq.
  assert (E : (N.lxor x (carried x between start) =? 0) = existsb (str_eqb (two_hex x)) (unnoticed between start)).
  { apply eqb_prop. revert x Hx D. intros x Hx _. revert x Hx.
    cbn [In separators] in Hb. destruct Hb as [<-|[<-|[<-|[<-|[]]]]], Hs as [-> | ->];
      apply (all_bytes (fun x => Bool.eqb (N.lxor x (carried x _ _) =? 0) (existsb (str_eqb (two_hex x)) (unnoticed _ _))));
      vm_compute; reflexivity. }
  now rewrite E.
Qed.

(** Two sentences in one call are rejected, whatever they are, unless the checksum of the first is one of
    those listed. *)
Theorem c86_run_together_partial ovf now p b1 between start b2 :
  b1 <> [] -> In between separators -> start = 33 \/ start = 36 ->
  ~ In (nmea_checksum b1) (unnoticed between start) ->
  exists calculated,
  parse_sentence ovf now (sent b1 ++ between ++ sent (start :: b2)) p =
  (Err (CorruptedSentence calculated (nmea_checksum (start :: b2))), p).
Proof.
  intros Hn Hb Hs Hu. destruct b1 as [|f r]; [congruence|]. rewrite together_body. eexists.
  apply wrong_checksum. intros E. apply Hu. rewrite checksum_low. apply unnoticed_spec; [exact Hb|exact Hs|apply low_lt|].
  now apply (together_low r between start b2).
Qed.
Print Assumptions c86_run_together_partial.

(** With one of those checksums the second sentence is lost without notice: every AIS sentence followed by
    any sentence counts as the AIS sentence alone. *)
Theorem c86_run_together_refuted ovf now p tt fff count number id channel payload more between start b2 b1 :
  has_fields b1 ((lit "!" ++ tt ++ fff) :: count :: number :: id :: channel :: payload :: more) -> more <> [] ->
  ~ In 42 b1 -> utf8_bytes tt = 2%nat -> fff = lit "VDM" \/ fff = lit "VDO" ->
  In between separators -> start = 33 \/ start = 36 -> In (nmea_checksum b1) (unnoticed between start) ->
  parse_sentence ovf now (sent b1 ++ between ++ sent (start :: b2)) p = parse_sentence ovf now (sent b1) p.
Proof.
  intros Hf Hm Hst Ht Hff Hb Hs Hu. destruct Hf as (_ & Hpl & Ej).
  assert (H1 : vdm_sentence (sent b1) tt fff count number id channel payload).
  { exists more. split; [|now split]. exists b1, (nmea_checksum b1).
    split; [right; split; [reflexivity|apply nmea_checksum_no_star]|]. split; [now right|]. split; [discriminate|]. now split. }
  apply (c38_rest_ignored ovf now _ _ p tt fff count number id channel payload); [|exact H1].
  destruct b1 as [|f r]; [discriminate Ej|].
  set (tail := lit "*" ++ two_hex (low r) ++ between ++ start :: b2).
  set (more' := split_on 44 (join more ++ tail)).
  assert (Ne : more' <> []) by (unfold more'; intros E; apply (f_equal join) in E; rewrite join_split_on in E;
    cbn [join] in E; apply app_eq_nil in E as [_ E]; discriminate E).
  exists more'. split; [|now split]. exists (f :: r ++ tail), (nmea_checksum (start :: b2)).
  split; [right; split; [apply together_body|apply nmea_checksum_no_star]|].
  split.
  { right. symmetry. rewrite (checksum_eq f _ start b2). apply together_low.
    apply unnoticed_spec; [exact Hb|exact Hs|apply low_lt|]. exact Hu. }
  split; [discriminate|]. split.
  { repeat match goal with H : Forall _ (_ :: _) |- _ => apply Forall_cons_1 in H as [? H] end.
    repeat (constructor; [assumption|]). apply split_on_plain. }
  change (f :: r ++ tail) with ((f :: r) ++ tail). rewrite Ej.
  repeat rewrite (join_cons _ (_ :: _)) by discriminate. rewrite (join_cons payload more), (join_cons payload more') by assumption.
  unfold more'. rewrite join_split_on. rewrite <- ?app_assoc. cbn [app]. rewrite <- ?app_assoc. cbn [app].
  repeat (rewrite <- ?app_assoc; cbn [app]). reflexivity.
Qed.
Print Assumptions c86_run_together_refuted.

Example c86_example :
  let b1 := lit "!AIVDM,1,1,,A,15RTgt0PAso;90TKcjM8h6g208C`,0" in
  let s1 := lit "!AIVDM,1,1,,A,15RTgt0PAso;90TKcjM8h6g208C`,0*7B" in
  let s2 := lit "$GPGSA,A,3,04,05,,09,12,,,24,,,,,2.5,1.3,2.1*39" in
  sent b1 = s1 /\ sent ex_gsa = s2 /\ In (nmea_checksum b1) (unnoticed [] 36) /\
  has_fields b1 [lit "!AIVDM"; lit "1"; lit "1"; []; lit "A"; lit "15RTgt0PAso;90TKcjM8h6g208C`"; lit "0"] /\ ~ In 42 b1 /\
  ~ In (nmea_checksum b1) (unnoticed [10] 36) /\
  (exists d, parse_sentence true ex_now (s1 ++ s2) new_parser = (Ok (PsVesselDynamicData d), new_parser)) /\
  exists e, parse_sentence true ex_now (s1 ++ [10] ++ s2) new_parser = (Err e, new_parser).
Proof.
  cbv zeta. split; [vm_compute; reflexivity|]. split; [vm_compute; reflexivity|]. split; [left; vm_compute; reflexivity|].
  split; [apply has_fields_split; vm_compute; reflexivity|].
  split; [intros X; vm_compute in X; repeat (destruct X as [X|X]; [discriminate|]); exact X|].
  split; [intros []|]. split; eexists; vm_compute; reflexivity.
Qed.
