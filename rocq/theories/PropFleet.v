(** C114: the reports of many ships and the journal of a GNSS receiver, all at once. *)
From stdpp Require Import gmap.
From Coq Require Import List NArith ZArith Bool String Lia Classical_Prop.
From Verif Require Import Base Str F64 Chrono Types Util AisMod Vdm Gnss Parser
  SpecText SpecResult SpecTime SpecReal SpecMeasure SpecSender SpecState SpecGnss SpecJournal SpecMerge SpecAis SpecTransponder SpecVoyage
  StrFacts FrontFacts CallFacts ResultFacts BitFacts VdmFacts LayoutFacts StateFacts RunFacts PropFront PropState PropAis PropStatic PropAssembly
  PropSender PropSenderGsv PropJournal PropTransponder PropVoyage.
Import ListNotations.
Open Scope N_scope.
Local Opaque pick_string pick_u64 pick_i64 pick_eta parse_f64 be_value f64_div f64_mul f64_of_Z f64_of_dec.

Lemma payload_bits_armor bits : exists k, payload_bits (armor bits) = bits ++ repeat false k.
Proof.
  destruct (parse_payload_armor false bits) as (k & _ & E). exists k. symmetry. now apply (payload_bits_model false).
Qed.

Lemma kind_bits t L : t < 64 -> bits_at (payload_bits (armor (layout_bits (U 6 t :: L)))) 0 6 = t.
Proof.
  intros H. destruct (payload_bits_armor (layout_bits (U 6 t :: L))) as [k ->]. unfold bits_at.
  change (layout_bits (U 6 t :: L)) with (be_bits 6 t ++ layout_bits L). rewrite <- app_assoc.
  pose proof (window_middle [] (be_bits 6 t) (layout_bits L ++ repeat false k)) as W.
  rewrite be_bits_length in W. cbn [app List.length] in W. rewrite W. now apply be_value_fits.
Qed.

Lemma mmsi_bits t r v L : v < 2 ^ 30 -> bits_at (payload_bits (armor (layout_bits (U 6 t :: U 2 r :: U 30 v :: L)))) 8 30 = v.
Proof.
  intros H. destruct (payload_bits_armor (layout_bits (U 6 t :: U 2 r :: U 30 v :: L))) as [k ->]. unfold bits_at.
  replace (layout_bits (U 6 t :: U 2 r :: U 30 v :: L)) with ((be_bits 6 t ++ be_bits 2 r) ++ be_bits 30 v ++ layout_bits L)
    by (unfold layout_bits, U; cbn [flat_map snd]; now rewrite <- app_assoc).
  rewrite <- !app_assoc.
  pose proof (window_middle (be_bits 6 t ++ be_bits 2 r) (be_bits 30 v) (layout_bits L ++ repeat false k)) as W.
  rewrite app_length, !be_bits_length in W. rewrite <- !app_assoc in W. cbn [Nat.add] in W. rewrite W. now apply be_value_fits.
Qed.

(** What a report needs of the memory. *)
Definition needs (e : ship_entry) (x : entry) : Prop :=
  match ht_news e with
  | Position _ => False
  | Voyage _ mid _ _ _ _ _ _ _ _ _ _ _ _ _ _ _ =>
    exists n, x = Text (fragment_key (if ht_own e then lit "VDO" else lit "VDM") mid (ht_channel e) n)
  | ClassBStatic _ mmsi _ _ _ _ _ _ _ => x = Vessel mmsi
  end.

(** A whole message in one sentence touches at most a vessel. *)
Lemma single_touches ovf s tt fff payload p x : one_fragment s tt fff payload -> touches ovf s p x ->
  bits_at (payload_bits payload) 0 6 = 24 /\ x = Vessel (bits_at (payload_bits payload) 8 30).
Proof.
  intros O T. destruct T as [tt' fff' mid channel n payload' k F K|tt' c n k (fields & (G & _) & _)|tt' fff' payload' C R B].
  - destruct (one_fragment_not_fragment _ _ _ _ _ _ _ _ _ _ O F).
  - exfalso. destruct O as (? & ? & ? & ? & ? & (? & V & _) & _). pose proof (sentence_unique _ _ _ V G) as X. discriminate X.
  - assert (payload' = payload) as ->; [|auto].
    destruct C as [a O'|mid ch a b F Ha|mid ch a b F Ha]; try (destruct (one_fragment_not_fragment _ _ _ _ _ _ _ _ _ _ O F)).
    destruct O as (? & ? & ? & ? & ? & (m & V) & _), O' as (? & ? & ? & ? & ? & (m' & V') & _).
    destruct (vdm_with_unique _ _ _ _ _ _ _ V V') as (_ & _ & [= _ _ _ _ <- _]). reflexivity.
Qed.

Lemma news_kind n : sendable n -> exists t L, news_layout n = U 6 t :: L /\ t < 64 /\ t <> 24.
Proof.
  destruct n; cbn [sendable news_layout app]; intros H; eexists; eexists; (split; [reflexivity|]); try lia.
Qed.

Lemma ship_touches ovf p e : ship_entry_sound e -> no_parts p -> touches_only ovf (needs e) (ship_calls e) p.
Proof.
  destruct e as [before now tt station own channel n]. unfold ship_entry_sound, ship_calls, needs.
  cbn [ht_before ht_at ht_talker ht_station ht_own ht_channel ht_news]. intros (Ht & Hp & Hst & Hch & Hn) [N1 N2].
  destruct (own_read own) as [_ Hf]. set (fff := if own then lit "VDO" else lit "VDM") in *. clearbody fff.
  destruct n as [n|cut mid mmsi version imo call_sign name ship h device month day hour minute draught destination dte
    |a_first mmsi name ship vendor model serial call_sign h]; cbn [sentences_of hull_layout app].
  - cbn [touches_only]. split; [|exact Logic.I]. intros x Hx.
    destruct (news_kind n Hn) as (t & L & E & T1 & T2). rewrite E in Hx.
    destruct (single_touches _ _ _ _ _ _ _ (encode_sentence_one_fragment tt fff channel _ Ht Hp Hf Hch) Hx) as [K _].
    rewrite kind_bits in K by exact T1. congruence.
  - cbn [news_sound] in Hn. destruct Hn as (Mi & _).
    match goal with |- context [firstn cut (armor (layout_bits (U 6 5 :: ?B)))] => set (L := B) in * end. cbv zeta.
    set (payload := armor (layout_bits (U 6 5 :: L))).
    assert (F1 : fragment (half_sentence tt fff channel mid 1 (firstn cut payload)) tt fff mid channel 1 (firstn cut payload))
      by (apply half_is; try assumption; [now left|apply plain_firstn, armor_plain]).
    assert (F2 : fragment (half_sentence tt fff channel mid 2 (skipn cut payload)) tt fff mid channel 2 (skipn cut payload))
      by (apply half_is; try assumption; [now right|apply plain_skipn, armor_plain]).
    set (s1 := half_sentence tt fff channel mid 1 (firstn cut payload)) in *.
    set (s2 := half_sentence tt fff channel mid 2 (skipn cut payload)) in *. clearbody s1 s2.
    cbn [touches_only]. split; [|split; [|exact Logic.I]].
    + intros x [tt' fff' mid' channel' n payload' k F K|tt' c n k G|tt' fff' payload' C R B].
      * destruct (fragment_unique _ _ _ _ _ _ _ _ _ _ _ _ _ F1 F) as (_ & <- & <- & <- & _). now exists k.
      * destruct (fragment_not_gsv _ _ _ _ _ _ _ _ _ _ F1 G).
      * exfalso. destruct C as [a O|mid' ch a b F Ha|mid' ch a b F Ha].
        -- exact (one_fragment_not_fragment _ _ _ _ _ _ _ _ _ _ O F1).
        -- destruct (fragment_unique _ _ _ _ _ _ _ _ _ _ _ _ _ F1 F) as (_ & _ & _ & _ & X & _). discriminate X.
        -- unfold waiting in Ha. rewrite N1 in Ha by auto. discriminate Ha.
    + rewrite (fragment_vdm_step ovf before s1 p _ _ _ _ _ _ F1). change (1 =? 1) with true. cbv iota. unfold first_step.
      rewrite (proj2 (proj1 (not_waiting_lookup _ _ _ _) (N1 fff mid channel))). cbn [snd].
      intros x [tt' fff' mid' channel' n payload' k F K|tt' c n k G|tt' fff' payload' C R B].
      * destruct (fragment_unique _ _ _ _ _ _ _ _ _ _ _ _ _ F2 F) as (_ & <- & <- & <- & _). now exists k.
      * destruct (fragment_not_gsv _ _ _ _ _ _ _ _ _ _ F2 G).
      * exfalso. destruct C as [a O|mid' ch a b F Ha|mid' ch a b F Ha].
        -- exact (one_fragment_not_fragment _ _ _ _ _ _ _ _ _ _ O F2).
        -- destruct (fragment_unique _ _ _ _ _ _ _ _ _ _ _ _ _ F2 F) as (_ & <- & <- & <- & _ & <-).
           apply waiting_lookup in Ha. unfold push_string in Ha. cbn [saved_fragments] in Ha.
           rewrite lookup_insert in Ha. injection Ha as <-. rewrite firstn_skipn in B. unfold payload in B.
           rewrite kind_bits in B by reflexivity. discriminate B.
        -- destruct (fragment_unique _ _ _ _ _ _ _ _ _ _ _ _ _ F2 F) as (_ & _ & _ & _ & X & _). discriminate X.
  - cbn [news_sound] in Hn. destruct Hn as (M & _).
    assert (One : forall L q x, touches ovf (encode_sentence tt fff channel (layout_bits (U 6 24 :: U 2 0 :: U 30 mmsi :: L))) q x -> x = Vessel mmsi).
    { intros L q x Hx.
      destruct (single_touches _ _ _ _ _ _ _ (encode_sentence_one_fragment tt fff channel _ Ht Hp Hf Hch) Hx) as [_ K].
      rewrite mmsi_bits in K by exact M. exact K. }
    destruct a_first; (cbn [touches_only]; split; [intros x; apply One|]; split; [intros x; apply One|exact Logic.I]).
Qed.

Lemma touches_only_app ovf K h1 h2 p : touches_only ovf K h1 p -> touches_only ovf K h2 (after ovf h1 p) -> touches_only ovf K (h1 ++ h2) p.
Proof.
  revert p. induction h1 as [|[now s] h1 IH]; intros p; [intros _ H; exact H|]. cbn [touches_only app]. rewrite after_cons.
  intros [H1 H2] H3. split; [exact H1|]. now apply IH.
Qed.

Lemma touches_only_impl ovf (K K' : entry -> Prop) h p : (forall x, K x -> K' x) -> touches_only ovf K h p -> touches_only ovf K' h p.
Proof.
  intros H. revert p. induction h as [|[now s] h IH]; intros p; [intros _; exact Logic.I|]. cbn [touches_only].
  intros [H1 H2]. split; [|now apply IH]. intros x Hx. now apply H, H1.
Qed.

Lemma log_touches ovf l p : Forall ship_entry_sound l -> no_parts p ->
  touches_only ovf (fun x => exists e, In e l /\ needs e x) (flat_map ship_calls l) p.
Proof.
  intros H N. induction H as [|e l He _ IH]; [exact Logic.I|]. cbn [flat_map]. apply touches_only_app.
  - eapply touches_only_impl; [|exact (ship_touches ovf p e He N)]. intros x Hx. exists e. split; [now left|exact Hx].
  - rewrite (proj2 (c114_static ovf p e He N)). eapply touches_only_impl; [|exact IH].
    intros x (f & Hi & Hx). exists f. split; [now right|exact Hx].
Qed.

Lemma damaged_step ovf now s p : damaged s -> exists a b, parse_sentence ovf now s p = (Err (CorruptedSentence a b), p).
Proof. intros (body & given & Hb & Hc). do 2 eexists. exact (parse_sentence_bad _ _ _ _ _ _ Hb Hc). Qed.

Lemma damaged_touches ovf s p x : damaged s -> ~ touches ovf s p x.
Proof.
  intros (body & given & Hb & Hc).
  assert (Q : forall fields, ~ sentence s fields).
  { intros fields (body' & given' & Hb' & Hk & _). apply has_body_split in Hb, Hb'. rewrite Hb in Hb'. injection Hb' as -> ->. now apply Hc. }
  intros [tt fff mid channel n payload k F K|tt c n k (fields & (G & _) & _)|tt fff payload C R B].
  - destruct F as (? & ? & ? & ? & (V & _) & _). exact (Q _ V).
  - exact (Q _ G).
  - destruct C as [a (? & ? & ? & ? & ? & (? & V & _) & _)|mid ch a b (? & ? & ? & ? & (V & _) & _) Ha|mid ch a b (? & ? & ? & ? & (V & _) & _) Ha];
      exact (Q _ V).
Qed.

Lemma foreign_step ovf now s p : foreign s -> exists text, parse_sentence ovf now s p = (Err (UnsupportedSentenceType text), p).
Proof.
  intros (tt & fff & fields & ((body & given & Hb & Hc & _ & Hp & Hj) & Hne & Ht) & Hf & Hn).
  apply List.Forall_cons_iff in Hp as [Hp _]. destruct fields as [|x fields]; [contradiction|].
  eexists. apply (c07_unsupported_formatter _ _ _ _ body given (lit "$") tt fff (join (x :: fields)) Hb Hc); [| |exact Ht|exact Hf|left; auto].
  - rewrite Hj. cbn [join]. now rewrite <- !app_assoc.
  - intros Hi. apply Hp. right. exact Hi.
Qed.

Lemma foreign_touches ovf s p x : foreign s -> ~ touches ovf s p x.
Proof.
  intros (tt' & fff' & fields' & (V' & _ & Ht') & _ & Hn).
  assert (Q : forall r fs, ~ sentence s ((lit "!" ++ r) :: fs)).
  { intros r fs V. pose proof (sentence_unique _ _ _ V V') as E. discriminate E. }
  intros [tt fff mid channel n payload k F K|tt c n k (fields & (G & _ & Ht) & _)|tt fff payload C R B].
  - destruct F as (? & ? & ? & ? & (V & _) & _). exact (Q _ _ V).
  - pose proof (sentence_unique _ _ _ G V') as E. injection E as E _.
    rewrite <- byte_len_spec in Ht, Ht'.
    assert (T : tt = tt').
    { pose proof (slice13 36 tt (lit "GSV") eq_refl Ht) as A. rewrite E, (slice13 36 tt' fff' eq_refl Ht') in A. now injection A. }
    rewrite T in E. apply app_inv_head in E. apply Hn. rewrite <- E. vm_compute. tauto.
  - destruct C as [a (? & ? & ? & ? & ? & (? & V & _) & _)|mid ch a b (? & ? & ? & ? & (V & _) & _) Ha|mid ch a b (? & ? & ? & ? & (V & _) & _) Ha];
      exact (Q _ _ V).
Qed.

Lemma refused_results ovf h p : (forall c, In c h -> damaged (snd c) \/ foreign (snd c)) ->
  Forall2 (fun c o => refused (snd c) o) h (results ovf h p) /\ (forall K, touches_only ovf K h p) /\ after ovf h p = p.
Proof.
  revert p. induction h as [|[now s] h IH]; intros p H; [split; [constructor|split; [intros K; exact Logic.I|reflexivity]]|].
  destruct (IH p (fun c Hc => H c (or_intror Hc))) as (A & T & F).
  assert (E : exists e, parse_sentence ovf now s p = (Err e, p) /\ refused s (Err e)).
  { destruct (H _ (or_introl eq_refl)) as [D|D]; cbn [snd] in D.
    - destruct (damaged_step ovf now s p D) as (a & b & E). exists (CorruptedSentence a b). split; [exact E|]. left. split; [exact D|]. now exists a, b.
    - destruct (foreign_step ovf now s p D) as (a & E). exists (UnsupportedSentenceType a). split; [exact E|]. right. split; [exact D|]. now exists a. }
  destruct E as (e & E & Re). rewrite results_cons, after_cons, E. cbn [fst snd]. split; [|split; [|exact F]].
  - constructor; [exact Re|exact A].
  - intros K. cbn [touches_only]. rewrite E. split; [|apply T].
    intros x Hx. destruct (H _ (or_introl eq_refl)) as [D|D]; [destruct (damaged_touches ovf s p x D Hx)|destruct (foreign_touches ovf s p x D Hx)].
Qed.

(** What no stream touches stays as it is. *)
Lemma untouched ovf (K : N -> entry -> Prop) m p x :
  (forall i j e, i <> j -> K i e -> K j e -> False) -> (forall i, touches_only ovf (K i) (stream i m) p) ->
  (forall i, ~ K i x) -> stored (after ovf (map snd m) p) x = stored p x.
Proof.
  intros HK Ht Hx.
  assert (U : exists u, stream u m = []).
  { assert (U : exists u, forall i c, In (i, c) m -> i < u).
    { clear Ht. induction m as [|[i c] m [u IH]]; [exists 0; intros i c []|]. exists (N.max (i + 1) u).
      intros k d [E|H]; [injection E as -> _; lia|]. apply IH in H. lia. }
    destruct U as [u U]. exists u. unfold stream. clear Ht. induction m as [|[i c] m IH]; [reflexivity|].
    cbn [List.filter fst]. assert (Hi := U i c (or_introl eq_refl)). destruct (N.eqb_spec i u); [lia|].
    apply IH. intros k d H. apply (U k d). now right. }
  destruct U as [u U].
  pose (K' := fun i e => if i =? u then forall k, ~ K k e else K i e).
  destruct (c14_streams_independent ovf K' m p) with (i := u) as [_ A].
  - intros i j e Hne. unfold K'. destruct (N.eqb_spec i u), (N.eqb_spec j u); [congruence| | |now apply HK].
    + intros A B. exact (A _ B).
    + intros A B. exact (B _ A).
  - intros i. unfold K'. destruct (N.eqb_spec i u) as [-> |]; [rewrite U; exact Logic.I|apply Ht].
  - rewrite U in A. apply A. unfold K'. rewrite N.eqb_refl. exact Hx.
Qed.

(** Any number of ships, each with its own log, the journal of a GNSS receiver (0), and sentences with a wrong
    checksum or of other instruments, on one line, in any order; sentences of others may come between the two of a report. Ships that
    send voyage reports use different message identifications or channels; no two that send static reports of
    class B have the same MMSI. Everything is understood in full, but the sentences of no use, which are all
    refused, and nothing is kept. *)
Theorem c114_noise ovf (noise : N -> bool) j (l : N -> list ship_entry) m p :
  Forall in_order j -> (forall i, Forall ship_entry_sound (l i)) -> no_groups p -> no_parts p ->
  noise 0 = false -> stream 0 m = journal_calls j ->
  (forall i, i <> 0 -> noise i = false -> stream i m = flat_map ship_calls (l i)) ->
  (forall i c, noise i = true -> In c (stream i m) -> damaged (snd c) \/ foreign (snd c)) ->
  (forall i k e f, i <> k -> In e (l i) -> In f (l k) -> apart e f) ->
  (exists answers, stream_results ovf 0 m p = List.concat answers /\
     Forall2 (fun e a => understood (je_system e) (je_news e) a) j answers) /\
  (forall i, i <> 0 -> noise i = false -> exists answers, stream_results ovf i m p = List.concat answers /\ Forall2 ship_back (l i) answers) /\
  (forall i, noise i = true -> Forall2 (fun c o => refused (snd c) o) (stream i m) (stream_results ovf i m p)) /\
  after ovf (map snd m) p = p.
Proof.
  intros Hj Hl G Np Z0 H0 H1 Hd Ap.
  set (K := fun (i : N) (x : entry) => if i =? 0 then exists tt c k, x = Text (gsv_key tt c k) else exists e, In e (l i) /\ needs e x).
  assert (KD : forall a b x, a <> b -> K a x -> K b x -> False).
  { intros a b x Hne. unfold K.
      assert (Q : forall tt c k b', (exists e, In e (l b') /\ needs e (Text (gsv_key tt c k))) -> False).
      { intros tt c k b' (e & _ & Hx). unfold needs in Hx. destruct (ht_news e); [exact Hx| |discriminate Hx].
        destruct Hx as [n Hx]. apply Text_inj in Hx. symmetry in Hx. now apply fragment_key_gsv_key in Hx. }
      destruct (N.eqb_spec a 0), (N.eqb_spec b 0); try congruence.
      + intros (tt & c & k & ->). apply Q.
      + intros X (tt & c & k & ->). exact (Q _ _ _ _ X).
      + intros (e & He & Xe) (f & Hf & Xf). specialize (Ap a b e f Hne He Hf). unfold apart in Ap. unfold needs in Xe, Xf.
        destruct (ht_news e); [exact Xe| |]; (destruct (ht_news f); [exact Xf| |]).
        * destruct Xe as [ne Xe], Xf as [nf Xf]. rewrite Xe in Xf. apply Text_inj in Xf.
          apply fragment_key_inj in Xf as (E1 & E2 & E3 & _); [|destruct (ht_own e); auto|destruct (ht_own f); auto].
          destruct (ht_own e), (ht_own f); try discriminate E1; destruct Ap as [Ap|[Ap|Ap]]; congruence.
        * destruct Xe as [ne Xe]. congruence.
        * destruct Xf as [nf Xf]. congruence.
        * congruence. }
  assert (KT : forall a, touches_only ovf (K a) (stream a m) p).
  { intros a. unfold K. destruct (N.eqb_spec a 0) as [-> |Na].
      + rewrite H0. apply PropGsv.touches_only_all. apply List.Forall_forall. intros [now s] Hc q x Hx. cbn [snd] in Hx.
        unfold journal_calls in Hc. apply in_flat_map in Hc as (e & He & Ie).
        rewrite List.Forall_forall in Hj. destruct (told_dollar _ _ _ (Hj e He) Ie) as (fff' & fields' & Hs' & _).
        assert (V : forall tt fff fields, ~ vdm_with s tt fff fields).
        { intros tt fff fields (Hs & _). pose proof (sentence_unique _ _ _ Hs Hs') as X. discriminate X. }
        destruct Hx as [tt fff mid channel n payload k A|tt c n k A|tt fff payload A].
        * destruct A as (? & ? & ? & ? & A & _). exfalso. eapply V. exact A.
        * eauto.
        * exfalso. destruct A as [? A|? ? ? ? A|? ? ? ? A].
          -- destruct A as (? & ? & ? & ? & ? & (? & A) & _). eapply V. exact A.
          -- destruct A as (? & ? & ? & ? & A & _). eapply V. exact A.
          -- destruct A as (? & ? & ? & ? & A & _). eapply V. exact A.
      + destruct (noise a) eqn:Z; [exact (proj1 (proj2 (refused_results ovf _ p (fun c => Hd a c Z))) _)|]. rewrite H1 by assumption. now apply log_touches. }
  pose proof (fun i => proj1 (c14_streams_independent ovf K m p KD KT i)) as S.
  split; [|split; [|split]].
  - rewrite S, H0. exact (proj1 (c111_journal ovf j p Hj G)).
  - intros i Hi Z. rewrite S, H1 by assumption. exact (proj1 (c114_ship_log ovf (l i) p (Hl i) Np)).
  - intros i Z. rewrite S. exact (proj1 (refused_results ovf _ p (fun c => Hd i c Z))).
  - apply stored_ext. intros x. destruct (classic (exists i, K i x)) as [[i Hi]|Hn].
    + rewrite (proj2 (c14_streams_independent ovf K m p KD KT i) x Hi). f_equal.
      destruct (noise i) eqn:Z; [exact (proj2 (proj2 (refused_results ovf _ p (fun c => Hd i c Z))))|].
      destruct (N.eq_dec i 0) as [-> |Ni].
      * rewrite H0. exact (proj2 (c111_journal ovf j p Hj G)).
      * rewrite H1 by assumption. exact (proj2 (c114_ship_log ovf (l i) p (Hl i) Np)).
    + apply (untouched ovf K m p x KD KT). intros i Hi. apply Hn. now exists i.
Qed.
Print Assumptions c114_noise.

(** The same if there is nothing else. *)
Theorem c114_fleet ovf j (l : N -> list ship_entry) m p :
  Forall in_order j -> (forall i, Forall ship_entry_sound (l i)) -> no_groups p -> no_parts p ->
  stream 0 m = journal_calls j -> (forall i, i <> 0 -> stream i m = flat_map ship_calls (l i)) ->
  (forall i k e f, i <> k -> In e (l i) -> In f (l k) -> apart e f) ->
  (exists answers, stream_results ovf 0 m p = List.concat answers /\
     Forall2 (fun e a => understood (je_system e) (je_news e) a) j answers) /\
  (forall i, i <> 0 -> exists answers, stream_results ovf i m p = List.concat answers /\ Forall2 ship_back (l i) answers) /\
  after ovf (map snd m) p = p.
Proof.
  intros Hj Hl G Np H0 H1 Ap.
  destruct (c114_noise ovf (fun _ => false) j l m p Hj Hl G Np eq_refl H0) as (A & B & _ & C); [|discriminate|exact Ap|].
  - intros i Hi _. now apply H1.
  - split; [exact A|]. split; [|exact C]. intros i Hi. now apply B.
Qed.
Print Assumptions c114_fleet.

(** The freighter of PropVoyage, and another one whose report is sent on the same channel while the first one's
    is not complete; and the journal of C111. *)
Definition ex_fleet (i : N) : list ship_entry :=
  if i =? 1 then ex_ships else if i =? 2 then
    [mk_ship_entry ex_now ex_now (lit "AI") StMobileStation false (lit "A")
       (Voyage 40 4 230123250 1 None (lit "OJMS") (lit "FINLANDIA") 69 (mk_hull 20 155 14 14) None 4 30 12 30 57 (lit "TALLINN") true);
     mk_ship_entry ex_now ex_now (lit "AI") StMobileStation false (lit "A")
       (ClassBStatic true 271041816 (lit "OTHER") 36 [] 1 2 [] (mk_hull 3 4 1 2))]
  else [].
Definition from_stream (i : N) (h : history) : interleaving := map (fun c => (i, c)) h.
Definition ex_fleet_line : interleaving :=
  from_stream 1 (firstn 1 (flat_map ship_calls (ex_fleet 1))) ++ from_stream 2 (firstn 1 (flat_map ship_calls (ex_fleet 2))) ++
  from_stream 0 (firstn 2 (journal_calls ex_journal)) ++
  from_stream 1 (skipn 1 (flat_map ship_calls (ex_fleet 1))) ++ from_stream 2 (skipn 1 (flat_map ship_calls (ex_fleet 2))) ++
  from_stream 0 (skipn 2 (journal_calls ex_journal)).

Lemma ex_fleet_sound i : Forall ship_entry_sound (ex_fleet i).
Proof.
  unfold ex_fleet. destruct (i =? 1); [exact ex_ships_sound|]. destruct (i =? 2); [|apply List.Forall_nil].
  assert (Sp : forall n t, (Nat.leb (List.length t) n && forallb (fun c => (32 <=? c) && (c <=? 95) && negb (c =? 64)) t && negb (last t 0 =? 32)) = true -> spellable n t).
  { intros n t H; apply andb_true_iff in H as [H H2]; apply andb_true_iff in H as [H H1]; apply Nat.leb_le in H;
    rewrite forallb_forall in H1; split; [exact H|]; split; [|split];
    [ apply List.Forall_forall; intros c Hc; apply H1 in Hc; apply andb_true_iff in Hc as [Hc _]; apply andb_true_iff in Hc as [C1 C2];
      apply N.leb_le in C1, C2; split; assumption
    | intros Hc; apply H1 in Hc; discriminate Hc
    | intros v ->; rewrite last_last in H2; discriminate H2 ]. }
  repeat (apply List.Forall_cons; [|]); [..|apply List.Forall_nil].
  all: unfold ship_entry_sound; cbn [ht_talker ht_station ht_channel ht_at ht_news].
  all: (split; [reflexivity|]); (split; [now apply plain_lit_dec|]).
  all: (split; [left; vm_compute; tauto|]); (split; [now apply plain_lit_dec|]).
  all: cbn [news_sound].
  - unfold hull_sound, year_in_range, valid_date, valid_time. cbn [every hu_bow hu_stern hu_port hu_starboard].
    change (2 ^ 30) with 1073741824.
    do 13 (split; [first [lia|discriminate|exact Logic.I|apply Sp; vm_compute; reflexivity|vm_compute; intuition (try discriminate; try lia)]|]).
    apply Sp. vm_compute. reflexivity.
  - unfold hull_sound. cbn [hu_bow hu_stern hu_port hu_starboard].
    change (2 ^ 30) with 1073741824. change (2 ^ 20) with 1048576.
    repeat (split; [first [lia|apply Sp; vm_compute; reflexivity]|]). lia.
Qed.

Lemma stream_from i k h : stream i (from_stream k h) = if k =? i then h else [].
Proof.
  unfold stream, from_stream. destruct (N.eqb_spec k i) as [-> |Hne]; induction h as [|c h IH]; try reflexivity; cbn [map List.filter fst].
  - rewrite N.eqb_refl. cbn [map snd]. now rewrite IH.
  - rewrite (proj2 (N.eqb_neq _ _) Hne). exact IH.
Qed.

Lemma stream_app i (m m' : interleaving) : stream i (m ++ m') = stream i m ++ stream i m'.
Proof. unfold stream. now rewrite List.filter_app, map_app. Qed.

Lemma ex_fleet_streams i : stream i ex_fleet_line =
  if i =? 0 then journal_calls ex_journal else flat_map ship_calls (ex_fleet i).
Proof.
  unfold ex_fleet_line. rewrite !stream_app, !stream_from.
  destruct (N.eqb_spec i 0) as [-> |N0]; [|destruct (N.eqb_spec i 1) as [-> |N1]; [|destruct (N.eqb_spec i 2) as [-> |N2]]].
  1-3: cbn [N.eqb Pos.eqb app]; rewrite ?app_nil_r; apply firstn_skipn.
  rewrite (proj2 (N.eqb_neq 0 i)), (proj2 (N.eqb_neq 1 i)), (proj2 (N.eqb_neq 2 i)) by congruence.
  unfold ex_fleet. rewrite (proj2 (N.eqb_neq i 1)), (proj2 (N.eqb_neq i 2)) by assumption. reflexivity.
Qed.

Example c114_fleet_example ovf : exists d1 d2 d3 d4,
  firstn 2 (stream_results ovf 1 ex_fleet_line new_parser) = [Ok PsIncomplete; Ok (PsVesselStaticData d1)] /\
  stream_results ovf 2 ex_fleet_line new_parser =
    [Ok PsIncomplete; Ok (PsVesselStaticData d2); Ok PsIncomplete; Ok (PsVesselStaticData d3)] /\
  vsd_name d1 = Some (lit "EVER DIADEM") /\ vsd_name d2 = Some (lit "FINLANDIA") /\ vsd_imo_number d2 = None /\
  vsd_destination d2 = Some (lit "TALLINN") /\ vsd_eta d2 = Some (mk_datetime 2021 4 30 12 30 d4 0) /\ vsd_ship_type d3 = ShSailing.
Proof.
  destruct (c114_fleet ovf ex_journal ex_fleet ex_fleet_line new_parser ex_journal_sound ex_fleet_sound) as (_ & S & _).
  - intros tt c n _. reflexivity.
  - split; [intros fff mid channel n _; reflexivity|intros mmsi; reflexivity].
  - exact (ex_fleet_streams 0).
  - intros i Hi. rewrite ex_fleet_streams. destruct (N.eqb_spec i 0); [contradiction|reflexivity].
  - intros i k e f Hne. unfold ex_fleet. destruct (N.eqb_spec i 1), (N.eqb_spec i 2), (N.eqb_spec k 1), (N.eqb_spec k 2);
      try congruence; try contradiction; unfold ex_ships; cbn [In]; intros He Hf; try contradiction;
      repeat match goal with H : _ \/ _ |- _ => destruct H as [<- |H] end; try contradiction; unfold apart; cbn [ht_news ht_own ht_channel];
      try exact Logic.I; try (right; left; discriminate); discriminate.
  - destruct (S 1 ltac:(discriminate)) as (a1 & E1 & B1). destruct (S 2 ltac:(discriminate)) as (a2 & E2 & B2). clear S.
    change (ex_fleet 1) with ex_ships in B1. unfold ex_ships in B1. unfold ex_fleet in B2. change (2 =? 1) with false in B2. change (2 =? 2) with true in B2. cbv iota in B2.
    apply Forall2_cons_inv_l in B1 as (x1 & l1 & (r1 & R1 & ->) & _ & ->).
    apply Forall2_cons_inv_l in B2 as (x2 & l2 & (r2 & R2 & ->) & B2 & ->).
    apply Forall2_cons_inv_l in B2 as (x3 & l3 & (r3 & R3 & ->) & B2 & ->). apply Forall2_nil_inv_l in B2 as ->.
    cbn [ht_at ht_own ht_station ht_news news_back] in *.
    destruct R1 as (d1 & -> & _ & _ & _ & _ & _ & A2 & _).
    destruct R2 as (d2 & -> & _ & _ & _ & C1 & _ & C2 & _ & _ & _ & (sec & C3) & _ & C4).
    destruct R3 as (d3 & -> & _ & _ & _ & _ & (D1 & _) & _).
    exists d1, d2, d3, sec. split; [rewrite E1; exact eq_refl|]. split; [rewrite E2; exact eq_refl|].
    split; [exact A2|]. split; [exact C2|]. split; [exact C1|]. split; [exact C4|]. split; [exact C3|].
    rewrite D1; [exact eq_refl|left; reflexivity].
Qed.

(** The same line with a damaged second half of the first ship's report, which comes before the right one, and
    the wind. *)
Definition ex_damaged : str := lit "!AIVDM,2,2,1,A,88888888880,2*00".
Definition ex_wind : str := lit "$IIMWV,084.0,R,10.4,N,A*04".
Definition ex_noise_line : interleaving :=
  firstn 2 ex_fleet_line ++ from_stream 3 [(ex_now, ex_damaged); (ex_now, ex_wind)] ++ skipn 2 ex_fleet_line.

Lemma ex_damaged_is : damaged ex_damaged.
Proof.
  exists (lit "!AIVDM,2,2,1,A,88888888880,2"), (lit "00"). split.
  - right. split; [reflexivity|]. vm_compute. intuition discriminate.
  - intros [H|H]; vm_compute in H; discriminate H.
Qed.

Lemma ex_wind_is : foreign ex_wind /\ ~ damaged ex_wind.
Proof.
  assert (B : has_body ex_wind (lit "$IIMWV,084.0,R,10.4,N,A") (lit "04")).
  { right. split; [reflexivity|]. vm_compute. intuition discriminate. }
  assert (C : checksum_ok (lit "$IIMWV,084.0,R,10.4,N,A") (lit "04")) by (right; vm_compute; reflexivity).
  split.
  - exists (lit "II"), (lit "MWV"), [lit "084.0"; lit "R"; lit "10.4"; lit "N"; lit "A"].
    split; [|split; [reflexivity|vm_compute; intuition discriminate]]. split; [|split; [discriminate|reflexivity]].
    eexists _, _. split; [exact B|]. split; [exact C|]. apply has_fields_split. reflexivity.
  - intros (b & g & B' & C'). apply has_body_split in B, B'. rewrite B in B'. injection B' as <- <-. now apply C'.
Qed.

Lemma ex_noise_streams i : stream i ex_noise_line = if i =? 3 then [(ex_now, ex_damaged); (ex_now, ex_wind)] else stream i ex_fleet_line.
Proof.
  assert (F : stream i ex_fleet_line = stream i (firstn 2 ex_fleet_line) ++ stream i (skipn 2 ex_fleet_line)).
  { now rewrite <- stream_app, firstn_skipn. }
  unfold ex_noise_line. rewrite !stream_app, stream_from, N.eqb_sym. destruct (N.eqb_spec i 3) as [-> |Hi].
  - rewrite (ex_fleet_streams 3) in F. change (3 =? 0) with false in F. change (ex_fleet 3) with (@nil ship_entry) in F.
    cbn [flat_map] in F. symmetry in F. apply app_eq_nil in F as [-> ->]. reflexivity.
  - rewrite F. reflexivity.
Qed.

Example c114_noise_example ovf : exists d1 calculated given text rest,
  stream_results ovf 1 ex_noise_line new_parser = Ok PsIncomplete :: Ok (PsVesselStaticData d1) :: rest /\
  stream_results ovf 3 ex_noise_line new_parser = [Err (CorruptedSentence calculated given); Err (UnsupportedSentenceType text)] /\
  vsd_name d1 = Some (lit "EVER DIADEM").
Proof.
  destruct (c114_noise ovf (fun i => i =? 3) ex_journal ex_fleet ex_noise_line new_parser ex_journal_sound ex_fleet_sound) as (_ & S & D & _).
  - intros tt c n _. reflexivity.
  - split; [intros fff mid channel n _; reflexivity|intros mmsi; reflexivity].
  - reflexivity.
  - rewrite ex_noise_streams. exact (ex_fleet_streams 0).
  - intros i Hi H3. rewrite ex_noise_streams, H3, ex_fleet_streams. destruct (N.eqb_spec i 0); [contradiction|reflexivity].
  - intros i c H3. rewrite ex_noise_streams, H3. intros [<- |[<- |[]]]; [left; exact ex_damaged_is|right; exact (proj1 ex_wind_is)].
  - intros i k e f Hne. unfold ex_fleet. destruct (N.eqb_spec i 1), (N.eqb_spec i 2), (N.eqb_spec k 1), (N.eqb_spec k 2);
      try congruence; try contradiction; unfold ex_ships; cbn [In]; intros He Hf; try contradiction;
      repeat match goal with H : _ \/ _ |- _ => destruct H as [<- |H] end; try contradiction; unfold apart; cbn [ht_news ht_own ht_channel];
      try exact Logic.I; try (right; left; discriminate); discriminate.
  - destruct (S 1 ltac:(discriminate) eq_refl) as (a1 & E1 & B1). specialize (D 3 eq_refl). clear S.
    change (ex_fleet 1) with ex_ships in B1. unfold ex_ships in B1.
    apply Forall2_cons_inv_l in B1 as (x1 & l1 & (r1 & R1 & ->) & _ & ->).
    cbn [ht_at ht_own ht_station ht_news news_back] in *.
    destruct R1 as (d1 & -> & _ & _ & _ & _ & _ & A2 & _).
    rewrite (ex_noise_streams 3) in D. change (3 =? 3) with true in D. cbv iota in D.
    apply Forall2_cons_inv_l in D as (o & l3 & R3 & D & E3). apply Forall2_cons_inv_l in D as (o' & l4 & R4 & D & ->).
    apply Forall2_nil_inv_l in D as ->. cbn [snd] in R3, R4.
    destruct R3 as [(_ & a & b & ->)|((tt & fff & fields & (V & _) & _) & _)];
      [|destruct V as (b & g & B & C & _), ex_damaged_is as (b' & g' & B' & C'); apply has_body_split in B, B';
        rewrite B in B'; injection B' as -> ->; contradiction].
    destruct R4 as [(R4 & _)|(_ & text & ->)]; [destruct (proj2 ex_wind_is R4)|].
    exists d1, a, b, text. eexists. split; [rewrite E1; exact eq_refl|]. split; [exact E3|exact A2].
Qed.
