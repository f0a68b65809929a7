(** Completions of C03, C46, C63 and C98: what the checksum cannot see, numbers in satellite
    sentences, which panics the build profile decides, satellite handlers on any text. *)
From stdpp Require Import gmap.
From Coq Require Import List NArith ZArith Bool String Lia.
From Verif Require Import Base Str F64 Chrono Types Util AisMod Vdm Gnss Parser
  SpecText SpecResult SpecAis SpecTime SpecState SpecGnss SpecFields SpecPanic SpecEnv SpecExact
  StrFacts FrontFacts CallFacts ResultFacts BitFacts VdmFacts LayoutFacts StateFacts RunFacts FieldFacts
  PropFront PropAis PropState PropGsv PropFields PropPanic PropEnv PropDamage.
Import ListNotations.
Open Scope N_scope.
Local Opaque pick_string pick_u64 pick_i64 pick_eta parse_f64 be_value.

(** ** C03 *)

(** Whatever happened to the text before the checksum, the sentence is reported as corrupted exactly if
    the exclusive or of the low bytes, without the first character, has changed. *)
Theorem c03_exactly ovf now p f r f' r' :
  fst (parse_sentence ovf now ((f' :: r') ++ lit "*" ++ nmea_checksum (f :: r)) p)
  = Err (CorruptedSentence (nmea_checksum (f' :: r')) (nmea_checksum (f :: r))) <->
  xor_all (map (fun c => c mod 256) r') <> xor_all (map (fun c => c mod 256) r).
Proof.
  assert (Hb : has_body ((f' :: r') ++ lit "*" ++ nmea_checksum (f :: r)) (f' :: r') (nmea_checksum (f :: r))).
  { right. split; [reflexivity|]. apply nmea_checksum_no_star. }
  change (xor_all (map (fun c => c mod 256) r')) with (low r').
  change (xor_all (map (fun c => c mod 256) r)) with (low r). rewrite <- (checksum_eq f' r' f r). split.
  - intros H E. apply parse_corrupted in H as (body & Hb' & Hc & _).
    destruct (has_body_unique _ _ _ _ _ Hb Hb') as [<- _]. apply Hc. right. congruence.
  - intros H. rewrite (parse_sentence_bad ovf now _ p _ _ Hb); [reflexivity|].
    intros [E|E]; [now apply nmea_checksum_nonempty in E|congruence].
Qed.
Print Assumptions c03_exactly.

(** A character replaced by one with the same low byte is never reported as corruption. *)
Theorem c03_blind_same_byte ovf now p first before c c' after calculated given :
  c mod 256 = c' mod 256 ->
  fst (parse_sentence ovf now
         ((first :: before ++ c' :: after) ++ lit "*" ++ nmea_checksum (first :: before ++ c :: after)) p)
  <> Err (CorruptedSentence calculated given).
Proof.
  intros Hc H. apply parse_corrupted in H as (body & Hb & Hn & _).
  assert (Hb' : has_body ((first :: before ++ c' :: after) ++ lit "*" ++ nmea_checksum (first :: before ++ c :: after))
                  (first :: before ++ c' :: after) (nmea_checksum (first :: before ++ c :: after))).
  { right. split; [reflexivity|]. apply nmea_checksum_no_star. }
  destruct (has_body_unique _ _ _ _ _ Hb Hb') as [-> ->]. apply Hn. right. apply checksum_eq.
  unfold low. rewrite !map_app. cbn [map]. now rewrite Hc.
Qed.
Print Assumptions c03_blind_same_byte.

(** '3' (51) replaced by U+0133 (307): the satellites are read as before. *)
Example c03_blind_same_byte_example :
  51 mod 256 = 307 mod 256 /\
  exists d, fst (parse_sentence true ex_now
    ((lit "$GPVTG," ++ [307] ++ lit ",T") ++ lit "*" ++ nmea_checksum (lit "$GPVTG,3,T")) new_parser) = Ok (PsVtg d).
Proof. split; [reflexivity|]. eexists. vm_compute. reflexivity. Qed.

(** ** C46 *)

Lemma written_nonempty k n : repeat 48 k ++ dec n <> [].
Proof. intros X. apply app_eq_nil in X as [_ X]. now apply dec_nonempty in X. Qed.

(** The twelve satellite numbers of a GSA sentence, each empty or written with any number of leading
    zeros, come back in order. *)
Theorem c46_satellite_numbers ovf now s tt fields p l :
  gnss_with s tt (lit "GSA") fields -> flds fields 2 12 = map written l ->
  (forall d, fst (parse_sentence ovf now s p) = Ok (PsGsa d) ->
     gsa_prn_numbers d = values l /\ Forall (fun n => n <= 255) (values l)) /\
  (Exists (fun n => 255 < n) (values l) -> exists e, fst (parse_sentence ovf now s p) = Err e).
Proof.
  intros Hs Hf. destruct (c41_gsa ovf now s tt _ fields p Hs (names_system_nav tt)) as (_ & H & M & _). split.
  - intros d Hr. apply H in Hr as (d' & E & R). injection E as <-. destruct R as (_ & _ & _ & R & _).
    rewrite Hf in R. clear Hf. revert R. generalize (gsa_prn_numbers d). induction l as [|o l IH]; intros v R.
    + inversion R. split; [reflexivity|constructor].
    + cbn [map] in R. unfold values. cbn [flat_map]. fold (values l). destruct o as [[k n]|]; cbn [written] in R.
      * inversion R as [|fs w R' E|f fs x w Nf [D B] R' E1 E2]; [exfalso; symmetry in E; now apply written_nonempty in E|]; subst.
        apply IH in R' as [-> F]. cbn [app]. rewrite (denotes_unique _ _ _ D (denotes_zeros k n)) in *.
        split; [reflexivity|]. now constructor.
      * inversion R as [|fs w R' E|f fs x w Nf D R' E1 E2]; [|now destruct Nf]; subst. apply IH in R' as [-> F]. now split.
  - intros X. apply M. right. right. left. rewrite Hf. clear Hf H M. apply Exists_exists in X as (n & Hn & B).
    unfold values in Hn. apply in_flat_map in Hn as ([[k m]|] & Ho & Hm); [|destruct Hm].
    destruct Hm as [-> |[]]. apply Exists_exists. exists (repeat 48 k ++ dec n). split.
    + change (repeat 48 k ++ dec n) with (written (Some (k, n))). now apply in_map.
    + split; [apply written_nonempty|]. intros v [D V]. rewrite (denotes_unique _ _ _ D (denotes_zeros k n)) in V. lia.
Qed.
Print Assumptions c46_satellite_numbers.

(** The four numbers of a satellite in view, each written with any number of leading zeros: a satellite
    number up to 255 gives an entry with the other numbers as far as they are in range. *)
Theorem c46_satellite_in_view ovf now s tt nav fields p k0 k1 k2 k3 prn elevation azimuth snr :
  gsv_message s tt 1 1 fields -> names_system tt nav ->
  nth 3 fields [] = repeat 48 k0 ++ dec prn -> nth 4 fields [] = repeat 48 k1 ++ dec elevation ->
  nth 5 fields [] = repeat 48 k2 ++ dec azimuth -> nth 6 fields [] = repeat 48 k3 ++ dec snr ->
  exists l, fst (parse_sentence ovf now s p) = Ok (PsGsv l) /\
  (prn <= 255 -> hd_error l = Some {| gsv_source := nav; gsv_prn_number := prn;
     gsv_elevation := if elevation <=? 255 then Some elevation else None;
     gsv_azimuth := if azimuth <=? 65535 then Some azimuth else None;
     gsv_snr := if snr <=? 255 then Some snr else None |}) /\
  (255 < prn -> (List.length l <= 3)%nat).
Proof.
  intros Hs Hn E0 E1 E2 E3. destruct (c49_blocks ovf now p s tt nav fields Hs Hn) as (l & Hr & Hl).
  exists l. split; [exact Hr|]. destruct Hl as (l0 & l1 & l2 & l3 & -> & H0 & H1 & H2 & H3).
  unfold str in *. rewrite E0, E1, E2, E3 in H0.
  assert (O : forall max k n, optional_number max (repeat 48 k ++ dec n) (if n <=? max then Some n else None)).
  { intros max k n. destruct (N.leb_spec n max) as [L|L]; [apply number_present; [apply denotes_zeros|exact L]|].
    apply number_absent. intros v D. now rewrite (denotes_unique _ _ _ D (denotes_zeros k n)). }
  split.
  - intros L. inversion H0 as [a b c d D B A1 A2 A3 E|A E].
    + rewrite (denotes_unique _ _ _ D (denotes_zeros k0 prn)).
      rewrite (optional_number_unique _ _ _ _ A1 (O 255 k1 elevation)), (optional_number_unique _ _ _ _ A2 (O 65535 k2 azimuth)),
        (optional_number_unique _ _ _ _ A3 (O 255 k3 snr)). reflexivity.
    + specialize (A prn (denotes_zeros k0 prn)). lia.
  - intros L. inversion H0 as [a b c d D B A1 A2 A3 E|A E].
    + rewrite (denotes_unique _ _ _ D (denotes_zeros k0 prn)) in B. lia.
    + rewrite !app_length. cbn [List.length Nat.add].
      destruct H1, H2, H3; cbn; lia.
Qed.
Print Assumptions c46_satellite_in_view.

Example c46_satellite_numbers_example :
  exists fields d, gnss_with (lit "$GPGSA,A,3,04,,009,255,,,,,,,,,2.5") (lit "GP") (lit "GSA") fields /\
    flds fields 2 12 = map written ([Some (1%nat, 4); None; Some (2%nat, 9); Some (0%nat, 255)] ++ repeat None 8) /\
    fst (parse_sentence true ex_now (lit "$GPGSA,A,3,04,,009,255,,,,,,,,,2.5") new_parser) = Ok (PsGsa d) /\
    gsa_prn_numbers d = [4; 9; 255].
Proof.
  do 2 eexists. split; [split; [eexists; eexists; split; [left; split; [|split; reflexivity]|]|]|].
  { cbn. intros H. repeat (destruct H as [H|H]; [discriminate H|]). exact H. }
  { split; [now left|]. apply has_fields_split. vm_compute. reflexivity. }
  { split; [discriminate|reflexivity]. }
  split; [reflexivity|]. split; vm_compute; reflexivity.
Qed.

Example c46_satellite_in_view_example :
  exists fields, gsv_message (lit "$GPGSV,1,1,01,005,40,0083,300") (lit "GP") 1 1 fields /\
    nth 3 fields [] = repeat 48 2 ++ dec 5 /\ nth 4 fields [] = repeat 48 0 ++ dec 40 /\
    nth 5 fields [] = repeat 48 2 ++ dec 83 /\ nth 6 fields [] = repeat 48 0 ++ dec 300 /\
    fst (parse_sentence true ex_now (lit "$GPGSV,1,1,01,005,40,0083,300") new_parser)
    = Ok (PsGsv [{| gsv_source := NavGps; gsv_prn_number := 5; gsv_elevation := Some 40;
                    gsv_azimuth := Some 83; gsv_snr := None |}]).
Proof.
  eexists. split; [split; [split; [eexists; eexists; split; [left; split; [|split; reflexivity]|]|]|]|].
  { cbn. intros H. repeat (destruct H as [H|H]; [discriminate H|]). exact H. }
  { split; [now left|]. apply has_fields_split. vm_compute. reflexivity. }
  { split; [discriminate|reflexivity]. }
  { split; (apply denotes_count; [|lia]); exact (denotes_zeros 0 1). }
  repeat (split; [reflexivity|]). vm_compute. reflexivity.
Qed.

(** ** C63 *)

(** The calls that panic with overflow checks are those that panic without, and the two overflows. *)
Theorem c63_panics now s p :
  clock now -> (0 <= dt_year now)%Z ->
  fst (parse_sentence true now s p) = Panic <->
  fst (parse_sentence false now s p) = Panic \/
  (exists tt n, gsv_part s tt 4294967295 n) \/
  (exists tt fff payload, completes s tt fff p payload /\ Exists (fun c => c mod 256 < 48) payload).
Proof.
  intros Hc Hy. rewrite !c08_panics by assumption. split.
  - intros [t fields F Hne Hl|tt fields G T|tt fields G T|tt fields G M T|tt n G Ho|tt fff payload C B].
    + left. eapply panic_type; eassumption.
    + left. eapply panic_gga; eassumption.
    + left. eapply panic_rmc; eassumption.
    + left. eapply panic_gll; eassumption.
    + right. left. eauto.
    + destruct B as [Ho X|bits E1 E2 X|bits E1 E2 X].
      * right. right. eauto 6.
      * left. eapply panic_ais; [exact C|]. eapply bad_time; eassumption.
      * left. eapply panic_ais; [exact C|]. eapply bad_eta; eassumption.
  - intros [H|[(tt & n & G)|(tt & fff & payload & C & X)]].
    + destruct H as [t fields F Hne Hl|tt fields G T|tt fields G T|tt fields G M T|tt n G Ho|tt fff payload C B].
      * eapply panic_type; eassumption.
      * eapply panic_gga; eassumption.
      * eapply panic_rmc; eassumption.
      * eapply panic_gll; eassumption.
      * discriminate.
      * eapply panic_ais; [exact C|]. destruct B as [Ho X|bits E1 E2 X|bits E1 E2 X]; [discriminate|eapply bad_time|eapply bad_eta]; eassumption.
    + eapply panic_gsv; [exact G|reflexivity].
    + eapply panic_ais; [exact C|]. now apply bad_character.
Qed.
Print Assumptions c63_panics.

(** Both overflows do happen, on a new parser. *)
Example c63_panics_example :
  gsv_part (lit "$GPGSV,4294967295,1,11") (lit "GP") 4294967295 1 /\
  fst (parse_sentence true ex_now (lit "$GPGSV,4294967295,1,11") new_parser) = Panic /\
  fst (parse_sentence false ex_now (lit "$GPGSV,4294967295,1,11") new_parser) = Ok PsIncomplete.
Proof.
  split; [|split; vm_compute; reflexivity].
  eexists. split; [split; [eexists; eexists; split; [left; split; [|split; reflexivity]|]|]|].
  { cbn. intros H. repeat (destruct H as [H|H]; [discriminate H|]). exact H. }
  { split; [now left|]. apply has_fields_split. vm_compute. reflexivity. }
  { split; [discriminate|reflexivity]. }
  split; (apply denotes_count; [|lia]); [exact (denotes_zeros 0 4294967295)|exact (denotes_zeros 0 1)].
Qed.
(** ** C98 *)

Lemma heading_key_model t c n : make_gsv_key t c n = heading_key t c n.
Proof. unfold make_gsv_key, heading_key. cbn [join]. now rewrite <- ?app_assoc. Qed.

Lemma heading_key_inj t c n m : heading_key t c n = heading_key t c m -> n = m.
Proof.
  rewrite <- !heading_key_model. unfold make_gsv_key. intros H.
  apply app_inv_head in H. apply app_inv_head in H. apply app_inv_head in H. apply app_inv_head in H. now apply dec_inj.
Qed.

Definition kept_list (p : NmeaParser) (k : str) : list str :=
  match saved_fragments p !! k with Some x => [x] | None => [] end.

Lemma collect_any nav t c range p : List.NoDup range ->
  fst (gsv_collect nav t c range p)
  = flat_map (fun i => flat_map (gsv_blocks nav) (kept_list p (heading_key t c i))) range /\
  (forall i, In i range -> saved_fragments (snd (gsv_collect nav t c range p)) !! heading_key t c i = None) /\
  (forall k, (forall i, In i range -> k <> heading_key t c i) ->
     saved_fragments (snd (gsv_collect nav t c range p)) !! k = saved_fragments p !! k) /\
  saved_vsds (snd (gsv_collect nav t c range p)) = saved_vsds p.
Proof.
  revert p. induction range as [|i range IH]; intros p Hd; [cbn; repeat split; intros _ []|].
  inversion Hd as [|? ? Hi Hd']; subst. cbn [gsv_collect flat_map]. unfold pull_string. rewrite heading_key_model.
  match goal with |- context [gsv_collect ?a ?b ?c ?d ?e] => specialize (IH e Hd'); destruct (gsv_collect a b c d e) as [v p2] end.
  cbn [fst snd saved_fragments saved_vsds] in *. destruct IH as (-> & D & K & V). split; [|split; [|split]].
  - f_equal.
    + unfold kept_list. destruct (saved_fragments p !! heading_key t c i); [cbn [flat_map]; now rewrite app_nil_r|reflexivity].
    + rewrite !flat_map_concat_map. f_equal. apply map_ext_in. intros j Hj. unfold kept_list. cbn [saved_fragments].
      rewrite lookup_delete_ne; [reflexivity|]. intros E. apply heading_key_inj in E as <-. contradiction.
  - intros j [<-|Hj]; [|now apply D].
    rewrite K; [apply lookup_delete|]. intros j Hj E. apply heading_key_inj in E as <-. contradiction.
  - intros k Hk. rewrite K; [|intros j Hj; apply Hk; now right]. apply lookup_delete_ne. intros E. apply (Hk i); [now left|congruence].
  - exact V.
Qed.

Lemma found_any t c range p :
  gsv_found t c range p = N.of_nat (List.length (List.filter
    (fun i => match saved_fragments p !! heading_key t c i with Some _ => true | None => false end) range)).
Proof.
  unfold gsv_found. enough (G : forall v, fold_left (fun found i => if contains_key (make_gsv_key t c i) p then found + 1 else found) range v
    = v + N.of_nat (List.length (List.filter (fun i => match saved_fragments p !! heading_key t c i with Some _ => true | None => false end) range)))
    by (now rewrite G).
  induction range as [|i range IH]; intros v; cbn [fold_left List.filter]; [cbn; lia|].
  rewrite IH. unfold contains_key. rewrite heading_key_model. destruct (saved_fragments p !! heading_key t c i); cbn [List.length]; lia.
Qed.

Lemma filter_all_length {A} (f : A -> bool) l :
  List.length (List.filter f l) = List.length l <-> forall x, In x l -> f x = true.
Proof.
  induction l as [|x l IH]; cbn [List.filter List.length In]; [split; [intros _ _ []|reflexivity]|].
  assert (B : forall (l : list A), (List.length (List.filter f l) <= List.length l)%nat).
  { clear. induction l as [|x l IH]; cbn; [lia|]. destruct (f x); cbn; lia. }
  specialize (B l). destruct (f x) eqn:E; cbn [List.length].
  - split.
    + intros H y [<-|Hy]; [exact E|]. apply IH; [lia|exact Hy].
    + intros H. f_equal. apply IH. auto.
  - split; [lia|]. intros H. specialize (H x (or_introl eq_refl)). congruence.
Qed.

Lemma handle_gsv_any ovf text nav p t fields c n :
  has_fields text (t :: fields) -> count_field (nth 0 fields []) c -> count_field (nth 1 fields []) n ->
  handle_gsv ovf text nav p =
  let p1 := push_string (heading_key t c n) text p in
  match gsv_range ovf c with
  | None => (Panic, p1)
  | Some range =>
    if gsv_found t c range p1 =? c then let '(v, p2) := gsv_collect nav t c range p1 in (Ok (PsGsv v), p2)
    else (Ok PsIncomplete, p1)
  end.
Proof.
  intros Hf Hc Hn. apply has_fields_split in Hf. symmetry in Hf. unfold handle_gsv. rewrite Hf. cbn [field nth].
  assert (Hnum : forall i v, count_field (nth i fields []) v ->
    exists o, number parse_u32 (t :: fields) (S i) = Ok o /\ unwrap_or o 0 = v).
  { intros i v Hv. unfold number, pick_number_field, field. cbn [nth]. rewrite str_eqb_nil_r.
    destruct Hv as [[-> ->]|[Hd Hv]]; [exists None; split; reflexivity|].
    destruct (nth i fields []) as [|x f] eqn:E.
    - destruct Hd as (ds & [Ed|Ed] & [Hd _] & _); [now subst|discriminate].
    - cbn [negb]. unfold parse_u32. rewrite (proj2 (parse_uint_spec u32_max (x :: f) v)).
      + exists (Some v). split; reflexivity.
      + split; [exact Hd|]. unfold u32_max. lia. }
  destruct (Hnum 0%nat c Hc) as (oc & -> & ->). destruct (Hnum 1%nat n Hn) as (on & -> & ->).
  cbv zeta. now rewrite heading_key_model.
Qed.

(** A text whose second and third field are a count [c] and a number [n]. If with it there is a text
    for every number from 1 to [c], the satellites of these texts are reported in the order of their
    numbers, and the texts are gone; otherwise the text is kept. Nothing else in the parser changes. *)
Theorem c98_satellites_any ovf text nav p t fields c n :
  has_fields text (t :: fields) -> count_field (nth 0 fields []) c -> count_field (nth 1 fields []) n ->
  c < 2 ^ 32 - 1 ->
  ((forall i, 1 <= i <= c -> exists x, kept_with p t c n text i x) ->
   exists ls, fst (handle_gsv ovf text nav p) = Ok (PsGsv (List.concat ls)) /\
     Forall2 (fun i l => exists x fs, kept_with p t c n text i x /\ has_fields x fs /\ satellites nav (tl fs) l)
       (numbers_to c) ls /\
     (forall i, 1 <= i <= c -> stored (snd (handle_gsv ovf text nav p)) (Text (heading_key t c i)) = None) /\
     (n = 0 \/ c < n -> stored (snd (handle_gsv ovf text nav p)) (Text (heading_key t c n)) = Some (inl text))) /\
  (~ (forall i, 1 <= i <= c -> exists x, kept_with p t c n text i x) ->
   fst (handle_gsv ovf text nav p) = Ok PsIncomplete /\
   stored (snd (handle_gsv ovf text nav p)) (Text (heading_key t c n)) = Some (inl text) /\
   forall i, i <> n -> stored (snd (handle_gsv ovf text nav p)) (Text (heading_key t c i)) = stored p (Text (heading_key t c i))) /\
  (forall e, (forall i, e <> Text (heading_key t c i)) -> stored (snd (handle_gsv ovf text nav p)) e = stored p e).
Proof.
  intros Hf Hc Hn Hlt. rewrite (handle_gsv_any ovf text nav p t fields c n Hf Hc Hn). cbv zeta.
  rewrite gsv_range_numbers by exact Hlt. set (p1 := push_string (heading_key t c n) text p).
  assert (P1 : forall i, saved_fragments p1 !! heading_key t c i = if N.eq_dec i n then Some text else saved_fragments p !! heading_key t c i).
  { intros i. unfold p1, push_string. cbn [saved_fragments]. destruct (N.eq_dec i n) as [-> |D]; [apply lookup_insert|].
    apply lookup_insert_ne. intros E. apply heading_key_inj in E. congruence. }
  assert (K1 : forall i x, saved_fragments p1 !! heading_key t c i = Some x <-> kept_with p t c n text i x).
  { intros i x. rewrite P1. unfold kept_with. cbn [stored]. destruct (N.eq_dec i n) as [E|D].
    - split; [intros [= <-]; now left|]. intros [[_ ->]|[D _]]; [reflexivity|contradiction].
    - split.
      + intros H. right. split; [exact D|]. now rewrite H.
      + intros [[E _]|[_ H]]; [contradiction|]. destruct (saved_fragments p !! heading_key t c i); [now injection H as ->|discriminate]. }
  assert (O1 : forall e, (forall i, e <> Text (heading_key t c i)) -> stored p1 e = stored p e).
  { intros [k|m] H; [|reflexivity]. cbn [stored]. unfold p1, push_string. cbn [saved_fragments]. f_equal. apply lookup_insert_ne.
    intros E. apply (H n). congruence. }
  assert (F : (gsv_found t c (numbers_to c) p1 =? c) = true <-> forall i, 1 <= i <= c -> exists x, kept_with p t c n text i x).
  { rewrite N.eqb_eq, found_any. pose proof (numbers_to_length c) as L.
    transitivity (List.length (List.filter (fun i => match saved_fragments p1 !! heading_key t c i with Some _ => true | None => false end) (numbers_to c)) = List.length (numbers_to c)); [rewrite L; lia|].
    rewrite filter_all_length. split.
    - intros H i Hi. apply numbers_to_in, H in Hi. destruct (saved_fragments p1 !! heading_key t c i) as [x|] eqn:E; [|discriminate].
      exists x. now apply K1.
    - intros H i Hi. apply numbers_to_in, H in Hi as (x & Hx). apply K1 in Hx. now rewrite Hx. }
  pose proof (collect_any nav t c (numbers_to c) p1 (numbers_to_nodup c)) as (C1 & C2 & C3 & C4).
  destruct (gsv_collect nav t c (numbers_to c) p1) as [v p2]. cbn [fst snd] in *.
  destruct (gsv_found t c (numbers_to c) p1 =? c); cbn [fst snd].
  - pose proof (proj1 F eq_refl) as A. split; [intros _|split; [intros H; contradiction|]].
    + exists (map (fun i => flat_map (gsv_blocks nav) (kept_list p1 (heading_key t c i))) (numbers_to c)).
      split; [now rewrite C1, flat_map_concat_map|]. split; [|split].
      * assert (G : forall l, (forall i, In i l -> 1 <= i <= c) ->
          Forall2 (fun i l => exists x fs, kept_with p t c n text i x /\ has_fields x fs /\ satellites nav (tl fs) l) l
            (map (fun i => flat_map (gsv_blocks nav) (kept_list p1 (heading_key t c i))) l)).
        { induction l as [|i l IH]; intros Hl; cbn [map]; constructor; [|apply IH; intros; apply Hl; now right].
          destruct (A i (Hl i (or_introl eq_refl))) as (x & Hx). exists x, (split_on 44 x). split; [exact Hx|].
          split; [now apply has_fields_split|]. apply K1 in Hx. unfold kept_list. rewrite Hx. cbn [flat_map]. rewrite app_nil_r.
          destruct (split_on 44 x) as [|h fs] eqn:E; [now apply split_on_nonempty in E|]. now apply gsv_blocks_satellites with h. }
        apply G. intros i. apply numbers_to_in.
      * intros i Hi. cbn [stored]. rewrite C2 by now apply numbers_to_in. reflexivity.
      * intros B. cbn [stored]. rewrite C3.
        { rewrite P1. destruct (N.eq_dec n n); [reflexivity|contradiction]. }
        intros i Hi E. apply heading_key_inj in E as <-. apply numbers_to_in in Hi. lia.
    + intros e He. destruct e as [k|m].
      * rewrite <- (O1 _ He). cbn [stored]. rewrite C3; [reflexivity|]. intros i _ E. apply (He i). now rewrite E.
      * cbn [stored]. rewrite C4. reflexivity.
  - split; [intros H; apply F in H; discriminate|]. split; [intros _|exact O1].
    split; [reflexivity|]. split; [cbn [stored]; rewrite P1; now destruct (N.eq_dec n n)|].
    intros i D. cbn [stored]. rewrite P1. now destruct (N.eq_dec i n).
Qed.
Print Assumptions c98_satellites_any.

(** Without a readable count and number the handler answers with an error, and for a count of
    4294967295 it keeps the text and panics or waits, depending on the build. *)
Theorem c98_satellites_else ovf text nav p t fields :
  has_fields text (t :: fields) ->
  ((forall c, ~ count_field (nth 0 fields []) c) \/ (forall n, ~ count_field (nth 1 fields []) n) ->
   snd (handle_gsv ovf text nav p) = p /\ exists e, fst (handle_gsv ovf text nav p) = Err (InvalidSentence e)) /\
  (forall n, count_field (nth 0 fields []) 4294967295 -> count_field (nth 1 fields []) n ->
   fst (handle_gsv ovf text nav p) = (if ovf then Panic else Ok PsIncomplete) /\
   stored (snd (handle_gsv ovf text nav p)) (Text (heading_key t 4294967295 n)) = Some (inl text) /\
   forall e, e <> Text (heading_key t 4294967295 n) -> stored (snd (handle_gsv ovf text nav p)) e = stored p e).
Proof.
  intros Hf. split.
  - intros H. pose proof Hf as Hs. apply has_fields_split in Hs. symmetry in Hs. unfold handle_gsv. rewrite Hs. cbn [field nth].
    pose proof (number_u32_field (t :: fields) 1) as N1. pose proof (number_u32_field (t :: fields) 2) as N2.
    pose proof (number_no_panic parse_u32 (t :: fields) 1) as P1. pose proof (number_no_panic parse_u32 (t :: fields) 2) as P2.
    assert (E : forall i e, number parse_u32 (t :: fields) i = Err e -> exists x, e = InvalidSentence x).
    { intros i e. unfold number. destruct (pick_number_field _ _ _); cbn [map_err]; [discriminate|intros [= <-]; eauto|discriminate]. }
    destruct (number parse_u32 (t :: fields) 1) as [oc|e|] eqn:E1; [|destruct (E _ _ E1) as (x & ->); cbn; eauto|contradiction].
    destruct (number parse_u32 (t :: fields) 2) as [on|e|] eqn:E2; [|destruct (E _ _ E2) as (x & ->); cbn; eauto|contradiction].
    exfalso. destruct H as [H|H]; [exact (H _ N1)|exact (H _ N2)].
  - intros n Hc Hn. rewrite (handle_gsv_any ovf text nav p t fields _ n Hf Hc Hn). cbv zeta.
    assert (S1 : forall e, e <> Text (heading_key t 4294967295 n) ->
      stored (push_string (heading_key t 4294967295 n) text p) e = stored p e).
    { intros [k|m] H; [|reflexivity]. cbn [stored]. unfold push_string. cbn [saved_fragments]. f_equal. apply lookup_insert_ne. congruence. }
    assert (S2 : stored (push_string (heading_key t 4294967295 n) text p) (Text (heading_key t 4294967295 n)) = Some (inl text)).
    { cbn [stored]. unfold push_string. cbn [saved_fragments]. now rewrite lookup_insert. }
    assert (R : gsv_range ovf 4294967295 = if ovf then None else Some []) by reflexivity.
    rewrite R. destruct ovf; cbn [fst snd]; auto.
Qed.
Print Assumptions c98_satellites_else.

(** A handler given texts under a heading no sentence of a talker has. *)
Example c98_satellites_any_example :
  let a := lit "whatever,2,1,,07,40" in let b := lit "whatever,2,2,,08" in
  let p := snd (handle_gsv true a NavOther new_parser) in
  has_fields b (lit "whatever" :: [lit "2"; lit "2"; []; lit "08"]) /\
  count_field (lit "2") 2 /\ (forall i, 1 <= i <= 2 -> exists x, kept_with p (lit "whatever") 2 2 b i x) /\
  fst (handle_gsv true b NavOther p) = Ok (PsGsv
    [{| gsv_source := NavOther; gsv_prn_number := 7; gsv_elevation := Some 40; gsv_azimuth := None; gsv_snr := None |};
     {| gsv_source := NavOther; gsv_prn_number := 8; gsv_elevation := None; gsv_azimuth := None; gsv_snr := None |}]).
Proof.
  cbv zeta. split; [apply has_fields_split; reflexivity|].
  split; [apply denotes_count; [exact (denotes_zeros 0 2)|lia]|]. split; [|vm_compute; reflexivity].
  intros i Hi. assert (i = 1 \/ i = 2) as [-> | ->] by lia.
  - eexists. right. split; [discriminate|]. vm_compute. reflexivity.
  - eexists. left. split; reflexivity.
Qed.

Example c98_satellites_else_example :
  has_fields (lit "$GPGSV,x,1") (lit "$GPGSV" :: [lit "x"; lit "1"]) /\ (forall c, ~ count_field (lit "x") c) /\
  has_fields (lit "$GPGSV,4294967295,1") (lit "$GPGSV" :: [lit "4294967295"; lit "1"]) /\
  count_field (lit "4294967295") 4294967295.
Proof.
  split; [apply has_fields_split; reflexivity|]. split.
  { intros c [[E _]|[(ds & [E|E] & [_ D] & _) _]]; [discriminate| |discriminate]. rewrite <- E in D.
    inversion D as [|? ? X]; subst. cbn in X. lia. }
  split; [apply has_fields_split; reflexivity|]. apply denotes_count; [exact (denotes_zeros 0 4294967295)|lia].
Qed.

(** A direct call never touches a waiting half of an AIS message or the static data of a vessel. *)
Theorem c98_satellites_apart ovf text nav p :
  (forall mmsi, stored (snd (handle_gsv ovf text nav p)) (Vessel mmsi) = stored p (Vessel mmsi)) /\
  (forall fff mid channel n, plain fff -> plain channel ->
   stored (snd (handle_gsv ovf text nav p)) (Text (fragment_key fff mid channel n))
   = stored p (Text (fragment_key fff mid channel n))).
Proof.
  assert (G : forall e, (forall t c i, plain t -> e <> Text (heading_key t c i)) ->
    stored (snd (handle_gsv ovf text nav p)) e = stored p e).
  { intros e He. destruct (split_on 44 text) as [|t fields] eqn:Es; [now apply split_on_nonempty in Es|].
    assert (Hf : has_fields text (t :: fields)) by now apply has_fields_split.
    assert (Ht : plain t) by (pose proof (proj1 (proj2 Hf)) as X; now apply Forall_inv in X).
    destruct (c98_satellites_else ovf text nav p t fields Hf) as [R O].
    assert (D : forall f, (exists v, count_field f v) \/ forall v, ~ count_field f v).
    { intros f. pose proof (number_u32_field [f] 0) as X. unfold field in X. cbn [nth] in X.
      destruct f as [|x f]; [left; exists 0; now left|]. destruct (parse_uint u32_max (x :: f)) as [v|] eqn:E.
      - apply parse_uint_spec in E as [E1 E2]. left. exists v. right. split; [exact E1|]. unfold u32_max in E2. lia.
      - right. intros v [[Y _]|[Y Z]]; [discriminate|]. rewrite (proj2 (parse_uint_spec u32_max (x :: f) v)) in E; [discriminate|].
        split; [exact Y|]. unfold u32_max. lia. }
    destruct (D (nth 0 fields [])) as [(c & Hc)|Hc]; [|destruct R as [-> _]; [now left|reflexivity]].
    destruct (D (nth 1 fields [])) as [(n & Hn)|Hn]; [|destruct R as [-> _]; [now right|reflexivity]].
    destruct (N.lt_ge_cases c (2 ^ 32 - 1)) as [L|L].
    - destruct (c98_satellites_any ovf text nav p t fields c n Hf Hc Hn L) as (_ & _ & A). apply A. intros i. now apply He.
    - assert (B : c < 2 ^ 32) by (destruct Hc as [[_ ->]|[_ B]]; [lia|exact B]).
      assert (c = 4294967295) by lia. subst c. destruct (O n Hc Hn) as (_ & _ & A). apply A. now apply He. }
  split.
  - intros m. apply G. discriminate.
  - intros fff mid channel n Hp Hch. apply G. intros t c i Ht [= E]. unfold fragment_key, heading_key in E.
    apply (f_equal (split_on 44)) in E.
    assert (Dp : forall v, plain (dec v)).
    { intros v H. pose proof (dec_digits v) as X. rewrite List.Forall_forall in X. apply X in H. lia. }
    rewrite !split_on_join in E; [discriminate E|discriminate| |discriminate|].
    + repeat constructor; auto.
    + repeat constructor; auto. intros [H|H]; [discriminate H|]. now apply Hp.
      intros [H|[]]; discriminate H.
Qed.
Print Assumptions c98_satellites_apart.

(** The first half of an AIS message is waiting; a text with the heading and the numbers of that half
    goes to the satellite handler. *)
Example c98_satellites_apart_example :
  let p := snd (parse_sentence true ex_now (lit "!AIVDM,2,1,7,A,55P5TL01VIaAL@7WKO@mBplU@<PDhh000000001S;AJ::4A80?4i@E53,0") new_parser) in
  let p' := snd (handle_gsv true (lit "!VDM,2,1,7,A") NavOther p) in
  waiting p (lit "VDM") 7 (lit "A") 1 (lit "55P5TL01VIaAL@7WKO@mBplU@<PDhh000000001S;AJ::4A80?4i@E53") /\
  waiting p' (lit "VDM") 7 (lit "A") 1 (lit "55P5TL01VIaAL@7WKO@mBplU@<PDhh000000001S;AJ::4A80?4i@E53") /\
  stored p' (Text (heading_key (lit "!VDM") 2 1)) = Some (inl (lit "!VDM,2,1,7,A")).
Proof. cbv zeta. split; [vm_compute; reflexivity|]. split; vm_compute; reflexivity. Qed.
