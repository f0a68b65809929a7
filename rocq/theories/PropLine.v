(** C83: fields that are not read, and ends of lines. *)
From stdpp Require Import gmap.
From Coq Require Import List NArith ZArith Bool String Lia.
From Verif Require Import Base Str F64 Chrono Types Util AisMod Vdm Gnss Parser
  SpecText SpecResult SpecAis SpecTime SpecState SpecGnss SpecReal SpecFields SpecLine
  StrFacts FrontFacts CallFacts ResultFacts BitFacts VdmFacts StateFacts FieldFacts
  PropFront PropBits PropFields.
Import ListNotations.
Open Scope N_scope.
Local Opaque pick_string pick_u64 pick_i64 pick_eta parse_f64.

(** ** Fields that are not read *)

Lemma gsa_prns_read l l' nums : (forall i, In i nums -> field l i = field l' i) -> gsa_prns l nums = gsa_prns l' nums.
Proof.
  intros H. induction nums as [|i nums IH]; [reflexivity|]. cbn [gsa_prns].
  rewrite (H i), IH, (number_ext parse_u8 l l' i (H i (or_introl eq_refl))); [reflexivity| |now left].
  intros j Hj. apply H. now right.
Qed.

Lemma handlers_read now body body' nav fff reads r : In (fff, reads) data_fields ->
  (forall i, In i reads -> field (split_on 44 body) (S i) = field (split_on 44 body') (S i)) ->
  plain_gnss now body nav fff r -> plain_gnss now body' nav fff r.
Proof.
  intros Hd H.
  assert (F : forall i, In (pred i) reads -> (1 <= i)%nat -> field (split_on 44 body) i = field (split_on 44 body') i).
  { intros [|i] Hi L; [lia|]. now apply H. }
  assert (NE : forall {A} (parse : str -> option A) i, In (pred i) reads -> (1 <= i)%nat ->
    number parse (split_on 44 body) i = number parse (split_on 44 body') i)
    by (intros; apply number_ext; now apply F).
  assert (LE : forall {A} (parse : str -> option A) i, In (pred i) reads -> (1 <= i)%nat ->
    number_lenient parse (split_on 44 body) i = number_lenient parse (split_on 44 body') i)
    by (intros; apply number_lenient_ext; now apply F).
  unfold data_fields in Hd. cbn [In seq] in Hd.
  intros P. destruct P;
    repeat (destruct Hd as [Hd|Hd]; [first [discriminate Hd|apply (f_equal snd) in Hd; cbn [snd] in Hd]|]);
    try destruct Hd; cbn [pred In] in F, NE, LE.
  - assert (E : handle_gga now body nav = handle_gga now body' nav).
    { unfold handle_gga. cbv zeta.
      rewrite (F 1%nat), (F 2%nat), (F 3%nat), (F 4%nat), (F 5%nat) by (cbn [pred]; tauto || lia).
      rewrite (NE _ parse_u8 6%nat), (NE _ parse_u8 7%nat), (NE _ parse_f64 8%nat), (NE _ parse_f64 9%nat), (NE _ parse_f64 11%nat),
        (NE _ parse_f64 13%nat), (NE _ parse_u16 14%nat) by (cbn [pred]; tauto || lia). reflexivity. }
    rewrite E. constructor.
  - assert (E : handle_rmc now body nav = handle_rmc now body' nav).
    { unfold handle_rmc, rmc_variation_field. cbv zeta.
      rewrite (F 1%nat), (F 2%nat), (F 3%nat), (F 4%nat), (F 5%nat), (F 6%nat), (F 9%nat), (F 11%nat) by (cbn [pred]; tauto || lia).
      rewrite (NE _ parse_f64 7%nat), (NE _ parse_f64 8%nat), (NE _ parse_f64 10%nat) by (cbn [pred]; tauto || lia). reflexivity. }
    rewrite E. constructor.
  - assert (E : handle_gsa body nav = handle_gsa body' nav).
    { unfold handle_gsa. cbv zeta.
      rewrite (F 1%nat), (F 2%nat) by (cbn [pred]; tauto || lia).
      rewrite (NE _ parse_f64 15%nat), (NE _ parse_f64 16%nat), (NE _ parse_f64 17%nat) by (cbn [pred]; tauto || lia).
      rewrite (gsa_prns_read _ (split_on 44 body') (seq 3 12)); [reflexivity|].
      intros i Hi. apply in_seq in Hi. apply F; [|lia]. lia. }
    rewrite E. constructor.
  - assert (E : handle_vtg body nav = handle_vtg body' nav).
    { unfold handle_vtg. cbv zeta.
      rewrite (F 9%nat) by (cbn [pred]; tauto || lia).
      rewrite (LE _ parse_f64 1%nat), (LE _ parse_f64 3%nat), (LE _ parse_f64 5%nat), (LE _ parse_f64 7%nat) by (cbn [pred]; tauto || lia).
      reflexivity. }
    rewrite E. constructor.
  - assert (E : handle_gll now body nav = handle_gll now body' nav).
    { unfold handle_gll. cbv zeta.
      rewrite (F 1%nat), (F 2%nat), (F 3%nat), (F 4%nat), (F 5%nat), (F 6%nat), (F 7%nat) by (cbn [pred]; tauto || lia).
      reflexivity. }
    rewrite E. constructor.
Qed.

(** Sentences of the same type and talker that agree in these fields have the same result, and leave
    the state alone. *)
Theorem c83_data_fields ovf now s s' tt fff fields fields' reads p :
  gnss_with s tt fff fields -> gnss_with s' tt fff fields' -> In (fff, reads) data_fields ->
  (forall i, In i reads -> fld fields i = fld fields' i) ->
  parse_sentence ovf now s p = parse_sentence ovf now s' p.
Proof.
  intros Hs Hs' Hd He.
  destruct (gnss_with_body _ _ _ _ Hs (gnss_with_plain _ _ _ _ Hs)) as (body & given & _ & _ & Hb & Hr).
  destruct (gnss_with_body _ _ _ _ Hs' (gnss_with_plain _ _ _ _ Hs')) as (body' & given' & _ & _ & Hb' & Hr').
  assert (H : forall i, In i reads -> field (split_on 44 body) (S i) = field (split_on 44 body') (S i)).
  { intros i Hi. rewrite Hb, Hb'. exact (He i Hi). }
  assert (P : exists r, plain_gnss now body (nav_of_talker tt) fff r).
  { unfold data_fields in Hd. cbn [In] in Hd. destruct Hd as [Hd|[Hd|[Hd|[Hd|[Hd|[]]]]]]; apply (f_equal fst) in Hd;
      cbn [fst] in Hd; subst fff; eexists; constructor. }
  destruct P as (r & P). rewrite (Hr ovf now p r P). pose proof (handlers_read _ _ _ _ _ _ _ Hd H P) as P'.
  now rewrite (Hr' ovf now p r P').
Qed.
Print Assumptions c83_data_fields.

(** ** Ends of lines *)

Lemma append_last_app l f e : append_last (l ++ [f]) e = l ++ [f ++ e].
Proof.
  induction l as [|x l IH]; [reflexivity|]. cbn [app append_last]. destruct (l ++ [f]) eqn:E; [now destruct l|]. now rewrite IH.
Qed.

Lemma join_append fields e : fields <> [] -> join (append_last fields e) = join fields ++ e.
Proof.
  induction fields as [|f fields IH]; [congruence|]. intros _. destruct fields as [|g fields]; [reflexivity|].
  change (append_last (f :: g :: fields) e) with (f :: append_last (g :: fields) e).
  rewrite (join_cons f (append_last (g :: fields) e)) by (destruct fields; discriminate).
  rewrite IH, (join_cons f (g :: fields)) by discriminate. now rewrite <- !app_assoc.
Qed.

Lemma plain_append fields e : plain e -> Forall plain fields -> Forall plain (append_last fields e).
Proof.
  intros He. induction fields as [|f fields IH]; intros H; [constructor|]. inversion H; subst.
  destruct fields as [|g fields]; [constructor; [now apply plain_app|constructor]|].
  change (append_last (f :: g :: fields) e) with (f :: append_last (g :: fields) e). constructor; auto.
Qed.

Lemma line_end_plain e : line_end e -> plain e /\ ~ In 42 e /\ e <> [].
Proof. intros [<-|[<-|[<-|[]]]]; (split; [|split]); unfold plain; cbn [In]; lia || discriminate. Qed.

Lemma sentence_append s t fields e : sentence s (t :: fields) -> fields <> [] -> ~ In 42 s -> line_end e ->
  sentence (s ++ e) (t :: append_last fields e).
Proof.
  intros (body & given & Hb & Hc & (_ & Hp & Hj)) Hne Hs He. apply line_end_plain in He as (E1 & E2 & _).
  destruct Hb as [(_ & -> & ->)|(-> & _)].
  2:{ exfalso. apply Hs, in_or_app. right. now left. }
  exists (s ++ e), []. split; [left; split; [|auto]|].
  - intros X. apply in_app_or in X as [X|X]; tauto.
  - split; [now left|]. split; [discriminate|].
    split; [constructor; [exact (Forall_inv Hp)|apply plain_append; [exact E1|exact (Forall_inv_tail Hp)]]|].
    rewrite join_cons by (destruct fields as [|? [|? ?]]; congruence || discriminate).
    rewrite (join_cons t fields) in Hj by exact Hne. rewrite join_append by exact Hne.
    rewrite Hj at 1. now rewrite <- !app_assoc.
Qed.

Lemma gnss_append s tt fff fields e : gnss_with s tt fff fields -> ~ In 42 s -> line_end e ->
  gnss_with (s ++ e) tt fff (append_last fields e).
Proof.
  intros (Hs & Hne & Ht) H He. split; [now apply sentence_append|]. split; [|exact Ht].
  destruct fields as [|f [|g fields]]; congruence || discriminate.
Qed.

Lemma append_nth fields e i : (i <> List.length fields - 1)%nat -> nth i (append_last fields e) [] = nth i fields [].
Proof.
  revert i. induction fields as [|f fields IH]; intros i Hi; [reflexivity|].
  destruct fields as [|g fields]; [destruct i as [|[|i]]; [cbn in Hi; lia|reflexivity|reflexivity]|].
  change (append_last (f :: g :: fields) e) with (f :: append_last (g :: fields) e).
  destruct i as [|i]; [reflexivity|]. cbn [nth]. apply IH. cbn [List.length] in *. lia.
Qed.

Lemma append_nth_last fields e : fields <> [] ->
  nth (List.length fields - 1) (append_last fields e) [] = nth (List.length fields - 1) fields [] ++ e.
Proof.
  induction fields as [|f fields IH]; [congruence|]. intros _. destruct fields as [|g fields]; [reflexivity|].
  change (append_last (f :: g :: fields) e) with (f :: append_last (g :: fields) e).
  replace (List.length (f :: g :: fields) - 1)%nat with (S (List.length (g :: fields) - 1)) by (cbn [List.length]; lia).
  cbn [nth]. apply IH. discriminate.
Qed.

(** The property fails for every sentence with a checksum: with the line end it is rejected. *)
Theorem c83_checksum_refuted ovf now s body given e p :
  has_body s body given -> given <> [] -> checksum_ok body given -> line_end e ->
  parse_sentence ovf now (s ++ e) p = (Err (CorruptedSentence (nmea_checksum body) (given ++ e)), p).
Proof.
  intros [(_ & _ & ->)|(-> & H)] Hg Hc He; [congruence|]. apply line_end_plain in He as (_ & E2 & E3).
  rewrite <- !app_assoc. apply c61_damaged_checksum_detected.
  - intros X. apply in_app_or in X as [X|X]; tauto.
  - destruct given; [congruence|discriminate].
  - destruct Hc as [Hc|Hc]; [congruence|]. rewrite Hc. intros X. apply (f_equal (@List.length N)) in X.
    rewrite app_length in X. destruct e; [congruence|]. cbn [List.length] in X. lia.
Qed.
Print Assumptions c83_checksum_refuted.

(** It holds for sentences without checksum whose last field is not one of those with data. *)
Theorem c83_unread_end_partial ovf now s tt fff fields reads e p :
  gnss_with s tt fff fields -> ~ In 42 s -> In (fff, reads) data_fields ->
  ~ In (List.length fields - 1)%nat reads -> line_end e ->
  parse_sentence ovf now (s ++ e) p = parse_sentence ovf now s p.
Proof.
  intros Hs H42 Hd Hl He. apply (c83_data_fields ovf now _ _ tt fff (append_last fields e) fields reads p); try assumption.
  - now apply gnss_append.
  - intros i Hi. unfold fld. apply append_nth. intros ->. contradiction.
Qed.
Print Assumptions c83_unread_end_partial.

(** ... and for AIS sentences without checksum with something after the payload field. *)
Theorem c83_ais_end_partial ovf now s tt fff fields e p :
  vdm_with s tt fff fields -> ~ In 42 s -> (5 < List.length fields)%nat -> line_end e ->
  parse_sentence ovf now (s ++ e) p = parse_sentence ovf now s p.
Proof.
  intros (Hs & Hne & Ht & Hf) H42 Hl He.
  destruct fields as [|count [|number [|id [|channel [|payload [|fill more]]]]]]; cbn [List.length] in Hl; try lia.
  apply (c38_rest_ignored ovf now _ _ p tt fff count number id channel payload).
  - exists (append_last (fill :: more) e). split; [|split; [discriminate|auto]].
    exact (sentence_append _ _ _ _ Hs Hne H42 He).
  - exists (fill :: more). split; [exact Hs|]. split; [exact Hne|auto].
Qed.
Print Assumptions c83_ais_end_partial.

(** It also fails, without checksum, for sentences that end in a number: *)
Definition printable (f : str) : Prop := Forall (fun c => 43 <= c) f.

Lemma line_end_unprintable f e : line_end e -> ~ printable (f ++ e).
Proof.
  intros He H. apply Forall_app in H as [_ H]. destruct He as [<-|[<-|[<-|[]]]]; apply Forall_inv in H; lia.
Qed.

Lemma digits_printable f : Forall (fun d => 48 <= d <= 57) f -> printable f.
Proof. intros H. eapply Forall_impl; [|exact H]. cbv beta. intros; lia. Qed.

Lemma denotes_printable f v : denotes f v -> printable f.
Proof.
  intros (ds & E & (_ & H) & _). apply digits_printable in H. destruct E as [->| ->]; [exact H|]. constructor; [lia|exact H].
Qed.

Lemma sign_printable f neg : sign_text f neg -> printable f.
Proof. intros [[-> _]|[[-> _]|[-> _]]]; repeat constructor; vm_compute; discriminate. Qed.

Lemma any_case_printable f w : in_any_case f w -> Forall (fun c => 97 <= c) w -> printable f.
Proof.
  intros H. induction H as [|c l f w Hc _ IH]; intros Hw; [constructor|]. inversion Hw; subst. constructor; [lia|now apply IH].
Qed.

Lemma decimal_printable f neg n e : decimal f neg n e -> printable f.
Proof.
  intros [sign ip dot fp ex x -> Hs Hi Hf _ Hd Hx _ _]. unfold printable.
  repeat (apply Forall_app; split).
  - exact (sign_printable _ _ Hs).
  - now apply digits_printable.
  - destruct Hd as [->|[-> _]]; repeat constructor; vm_compute; discriminate.
  - now apply digits_printable.
  - destruct Hx as [|mark sg ng ds Hm Hg (_ & Hn)]; [constructor|]. repeat (apply Forall_app; split).
    + destruct Hm as [->| ->]; repeat constructor; vm_compute; discriminate.
    + exact (sign_printable _ _ Hg).
    + now apply digits_printable.
Qed.

Lemma double_printable f x : reads_double f x -> printable f.
Proof.
  intros [neg n e y D _ _ _|neg n e D _|sign neg w -> Hs Hw|sign neg w -> Hs Hw].
  1,2: exact (decimal_printable _ _ _ _ D).
  all: unfold printable; apply Forall_app; split; [exact (sign_printable _ _ Hs)|].
  - destruct Hw as [Hw|Hw]; apply (any_case_printable _ _ Hw); repeat constructor; vm_compute; discriminate.
  - apply (any_case_printable _ _ Hw); repeat constructor; vm_compute; discriminate.
Qed.

Lemma printable_value {A} (means : str -> A -> Prop) f o :
  (forall g v, means g v -> printable g) -> field_value means f o -> printable f.
Proof. intros H [->|v _ Hv]; [constructor|exact (H _ _ Hv)]. Qed.

Lemma numbers_printable fs l : numbers_in fs l -> Forall printable fs.
Proof.
  induction 1 as [| |f fs v l _ [H _] _ IH]; constructor; try assumption; [constructor|]. exact (denotes_printable _ _ H).
Qed.

Lemma fields_printable ovf now s tt fff fields nums p r :
  gnss_with s tt fff fields -> clock now -> (0 <= dt_year now)%Z -> In (fff, nums) number_fields ->
  fst (parse_sentence ovf now s p) = Ok r -> forall i, In i nums -> printable (fld fields i).
Proof.
  intros Hs Hc Hy Hn Hr i Hi. pose proof (names_system_nav tt) as Ht.
  assert (P8 : forall m g v, number_text m g v -> printable g) by (intros m g v [H _]; exact (denotes_printable _ _ H)).
  pose proof double_printable as PD.
  assert (PV : forall side g v, variation side g v -> printable g) by (intros side g v (y & H & _); exact (PD _ _ H)).
  destruct Hn as [Hn|[Hn|[Hn|[]]]]; injection Hn as <- <-.
  - destruct (c39_gga ovf now s tt _ fields p Hs Ht Hc) as (_ & H & _). apply H in Hr as (d & _ & R).
    destruct R as (_ & _ & _ & _ & (q & R5 & _) & R6 & R7 & R8 & R10 & R12 & R13).
    destruct Hi as [<-|[<-|[<-|[<-|[<-|[<-|[<-|[]]]]]]]]; (eapply printable_value; [|eassumption]; eauto).
  - destruct (c40_rmc ovf now s tt _ fields p Hs Ht Hy) as (_ & H & _). apply H in Hr as (d & _ & R).
    destruct R as (_ & _ & _ & _ & _ & R6 & R7 & R9).
    destruct Hi as [<-|[<-|[<-|[]]]]; (eapply printable_value; [|eassumption]; eauto).
  - destruct (c41_gsa ovf now s tt _ fields p Hs Ht) as (_ & H & _). apply H in Hr as (d & _ & R).
    destruct R as (_ & _ & _ & RN & R14 & R15 & R16). apply numbers_printable in RN. unfold flds in RN.
    rewrite Forall_map, Forall_forall in RN.
    destruct (Nat.lt_ge_cases i 14) as [L|L].
    + apply RN. apply in_seq. change (In i (seq 2 15)) in Hi. apply in_seq in Hi. lia.
    + change (In i (seq 2 15)) in Hi. apply in_seq in Hi.
      assert (i = 14 \/ i = 15 \/ i = 16)%nat as [->|[->| ->]] by lia; (eapply printable_value; [|eassumption]; eauto).
Qed.

Theorem c83_number_end_refuted ovf now s tt fff fields nums e p :
  gnss_with s tt fff fields -> ~ In 42 s -> clock now -> (0 <= dt_year now)%Z ->
  In (fff, nums) number_fields -> In (List.length fields - 1)%nat nums -> line_end e ->
  forall r, fst (parse_sentence ovf now (s ++ e) p) <> Ok r.
Proof.
  intros Hs H42 Hc Hy Hn Hl He r Hr. pose proof (gnss_append _ _ _ _ _ Hs H42 He) as Ha.
  pose proof (fields_printable _ _ _ _ _ _ _ _ _ Ha Hc Hy Hn Hr _ Hl) as P. unfold fld in P.
  destruct Hs as (_ & Hne & _). rewrite append_nth_last in P by exact Hne. exact (line_end_unprintable _ _ He P).
Qed.
Print Assumptions c83_number_end_refuted.

(** ... and for those that end in the mode: it is lost, everything else is as without the line end. *)
Lemma mode_lost f e o : line_end e -> lenient_value (word faa_modes) (f ++ e) o -> o = None.
Proof.
  intros He [_|v _ Hv]; [reflexivity|]. exfalso. apply (line_end_unprintable f e He).
  destruct Hv as [Hv|[Hv|[Hv|[Hv|[]]]]]; apply (f_equal fst) in Hv; cbn [fst] in Hv; rewrite <- Hv;
    repeat constructor; vm_compute; discriminate.
Qed.

Theorem c83_gll_mode_refuted ovf now s tt fields e p d :
  gnss_with s tt (lit "GLL") fields -> List.length fields = 7%nat -> ~ In 42 s -> clock now -> line_end e ->
  fst (parse_sentence ovf now s p) = Ok (PsGll d) ->
  parse_sentence ovf now (s ++ e) p =
  (Ok (PsGll {| gll_source := gll_source d; gll_latitude := gll_latitude d; gll_longitude := gll_longitude d;
       gll_timestamp := gll_timestamp d; gll_data_valid := gll_data_valid d; gll_faa_mode := None |}), p).
Proof.
  intros Hs Hl H42 Hc He Hr. pose proof (gnss_append _ _ _ _ _ Hs H42 He) as Ha. pose proof (names_system_nav tt) as Ht.
  destruct (c42_gll ovf now s tt _ fields p Hs Ht Hc) as (_ & H & _). apply H in Hr as (d0 & E & R). injection E as <-.
  destruct (c42_gll ovf now (s ++ e) tt _ (append_last fields e) p Ha Ht Hc) as (S & H' & _).
  rewrite (surjective_pairing (parse_sentence ovf now (s ++ e) p)), S. f_equal. apply H'. eexists. split; [reflexivity|].
  assert (N : forall i, (i < 6)%nat -> fld (append_last fields e) i = fld fields i) by (intros; apply append_nth; lia).
  assert (L : fld (append_last fields e) 6 = fld fields 6 ++ e).
  { pose proof (append_nth_last fields e (proj1 (proj2 Hs))) as X. rewrite Hl in X. exact X. }
  destruct R as (R1 & R2 & R3 & R4 & R5 & _). unfold gll_report. rewrite !N by lia.
  cbn [gll_source gll_latitude gll_longitude gll_timestamp gll_data_valid gll_faa_mode].
  repeat split; try assumption. rewrite L. constructor. right. intros v Hv.
  assert (Some v = None) by (apply (mode_lost (fld fields 6) e _ He); constructor; [|exact Hv]; apply line_end_plain in He;
    intros X; apply app_eq_nil in X; tauto). discriminate.
Qed.
Print Assumptions c83_gll_mode_refuted.

Theorem c83_vtg_mode_refuted ovf now s tt fields e p d :
  gnss_with s tt (lit "VTG") fields -> List.length fields = 9%nat -> ~ In 42 s -> line_end e ->
  fst (parse_sentence ovf now s p) = Ok (PsVtg d) ->
  parse_sentence ovf now (s ++ e) p =
  (Ok (PsVtg {| vtg_source := vtg_source d; vtg_cog_true := vtg_cog_true d; vtg_cog_magnetic := vtg_cog_magnetic d;
       vtg_sog_knots := vtg_sog_knots d; vtg_sog_kph := vtg_sog_kph d; vtg_faa_mode := None |}), p).
Proof.
  intros Hs Hl H42 He Hr. pose proof (gnss_append _ _ _ _ _ Hs H42 He) as Ha. pose proof (names_system_nav tt) as Ht.
  destruct (c43_vtg ovf now s tt _ fields p Hs Ht) as (_ & H). apply H in Hr as R.
  destruct (c43_vtg ovf now (s ++ e) tt _ (append_last fields e) p Ha Ht) as ((d' & E) & H').
  assert (X : fst (parse_sentence ovf now (s ++ e) p) = Ok (PsVtg {| vtg_source := vtg_source d; vtg_cog_true := vtg_cog_true d;
    vtg_cog_magnetic := vtg_cog_magnetic d; vtg_sog_knots := vtg_sog_knots d; vtg_sog_kph := vtg_sog_kph d;
    vtg_faa_mode := None |})).
  2:{ rewrite E in X |- *. cbn [fst] in X. now rewrite X. }
  apply H'.
  assert (N : forall i, (i < 8)%nat -> fld (append_last fields e) i = fld fields i) by (intros; apply append_nth; lia).
  assert (L : fld (append_last fields e) 8 = fld fields 8 ++ e).
  { pose proof (append_nth_last fields e (proj1 (proj2 Hs))) as X. rewrite Hl in X. exact X. }
  destruct R as (R1 & R2 & R3 & R4 & R5 & _). unfold vtg_report. rewrite !N by lia.
  cbn [vtg_source vtg_cog_true vtg_cog_magnetic vtg_sog_knots vtg_sog_kph vtg_faa_mode].
  repeat split; try assumption. rewrite L. constructor. right. intros v Hv.
  assert (Some v = None) by (apply (mode_lost (fld fields 8) e _ He); constructor; [|exact Hv]; apply line_end_plain in He;
    intros X; apply app_eq_nil in X; tauto). discriminate.
Qed.
Print Assumptions c83_vtg_mode_refuted.

(** ** Examples *)

(** A line end makes no difference, or a difference, as the theorems say. *)
Example c83_example :
  let r s := fst (parse_sentence true ex_now s new_parser) in
  let crlf := [13; 10] in
  (* last field not read *)
  gnss_with (lit "$GPRMC,225446,A,4916.45,N,12311.12,W,000.5,054.7,191194,020.3,E,A") (lit "GP") (lit "RMC")
    [lit "225446"; lit "A"; lit "4916.45"; lit "N"; lit "12311.12"; lit "W"; lit "000.5"; lit "054.7"; lit "191194";
     lit "020.3"; lit "E"; lit "A"] /\
  (exists d, r (lit "$GPRMC,225446,A,4916.45,N,12311.12,W,000.5,054.7,191194,020.3,E,A" ++ crlf) = Ok (PsRmc d)) /\
  vdm_with (lit "!AIVDM,1,1,,A,15RTgt0PAso;90TKcjM8h6g208CQ,0") (lit "AI") (lit "VDM")
    [lit "1"; lit "1"; []; lit "A"; lit "15RTgt0PAso;90TKcjM8h6g208CQ"; lit "0"] /\
  (exists d, r (lit "!AIVDM,1,1,,A,15RTgt0PAso;90TKcjM8h6g208CQ,0" ++ crlf) = Ok (PsVesselDynamicData d)) /\
  (* checksum *)
  (exists d, r (lit "!AIVDM,1,1,,A,15RTgt0PAso;90TKcjM8h6g208CQ,0*4A") = Ok (PsVesselDynamicData d)) /\
  r (lit "!AIVDM,1,1,,A,15RTgt0PAso;90TKcjM8h6g208CQ,0*4A" ++ crlf) =
    Err (CorruptedSentence (lit "4A") (lit "4A" ++ crlf)) /\
  (* number at the end *)
  (exists d, r (lit "$GPGSA,A,3,19,28,,14,18,27,,22,31,39,,,1.7,1.0,1.3") = Ok (PsGsa d)) /\
  (exists e, r (lit "$GPGSA,A,3,19,28,,14,18,27,,22,31,39,,,1.7,1.0,1.3" ++ crlf) = Err e) /\
  (* mode at the end *)
  (exists d, r (lit "$GAGLL,4916.45,N,12311.12,W,225444,A,D") = Ok (PsGll d) /\ gll_faa_mode d = Some FaaDifferential) /\
  (exists d, r (lit "$GAGLL,4916.45,N,12311.12,W,225444,A,D" ++ crlf) = Ok (PsGll d) /\ gll_faa_mode d = None).
Proof.
  cbv zeta. split; [gnss|]. split; [eexists; vm_compute; reflexivity|].
  split. { split; [apply check_sentence; vm_compute; split; reflexivity|]. split; [discriminate|]. split; [reflexivity|now left]. }
  split; [eexists; vm_compute; reflexivity|]. split; [eexists; vm_compute; reflexivity|].
  split; [vm_compute; reflexivity|]. split; [eexists; vm_compute; reflexivity|]. split; [eexists; vm_compute; reflexivity|].
  split; eexists; split; vm_compute; reflexivity.
Qed.

(** Every field in [data_fields] is read: changing it alone can change the result. *)
Definition ex_full : list (str * list str) :=
  [(lit "GGA", map lit ["123519"; "4807.038"; "N"; "01131.000"; "E"; "1"; "08"; "0.9"; "545.4"; "M"; "46.9"; "M"; "3"; "7"]%string);
   (lit "RMC", map lit ["225446"; "A"; "4916.45"; "N"; "12311.12"; "W"; "000.5"; "054.7"; "191194"; "020.3"; "E"]%string);
   (lit "GSA", map lit ["A"; "3"; "19"; "28"; "1"; "14"; "18"; "27"; "2"; "22"; "31"; "39"; "3"; "4"; "1.7"; "1.0"; "1.3"]%string);
   (lit "GLL", map lit ["4916.45"; "N"; "12311.12"; "W"; "225444"; "A"; "D"]%string);
   (lit "VTG", map lit ["089.0"; "T"; "080.0"; "M"; "15.2"; "N"; "28.1"; "K"; "A"]%string)].

Definition ex_other (f : str) : str :=
  if str_eqb f (lit "N") then lit "S" else if str_eqb f (lit "W") then lit "E" else if str_eqb f (lit "E") then lit "W"
  else if str_eqb f (lit "A") then lit "V" else if str_eqb f (lit "D") then lit "E"
  else if str_eqb f (lit "3") then lit "2" else if str_eqb f (lit "1") then lit "2" else
  match f with a :: b :: l => a :: (if b =? 49 then 50 else 49) :: l | [a] => [48] | [] => [48] end.

Fixpoint ex_change (i : nat) (l : list str) : list str :=
  match i, l with
  | O, f :: l' => ex_other f :: l'
  | S i', f :: l' => f :: ex_change i' l'
  | _, [] => []
  end.

Definition ex_text (fff : str) (l : list str) : str := join ((lit "$GP" ++ fff) :: l).

Example c83_each_field_read :
  Forall2 (fun x y => fst x = fst y /\ Forall (fun i =>
      fst (parse_sentence true ex_now (ex_text (fst y) (ex_change i (snd y))) new_parser) <>
      fst (parse_sentence true ex_now (ex_text (fst y) (snd y)) new_parser)) (snd x))
    data_fields ex_full.
Proof. repeat constructor; intros X; vm_compute in X; discriminate X. Qed.
