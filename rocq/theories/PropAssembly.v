(** C94, and C75 for AIS messages: assembly of fragments over whole histories. *)
From stdpp Require Import gmap.
From Coq Require Import List NArith ZArith Bool String Lia.
From Verif Require Import Base Str F64 Chrono Types Util AisMod Vdm Gnss Parser
  SpecText SpecResult SpecAis SpecState SpecAssembly StrFacts FrontFacts CallFacts ResultFacts BitFacts VdmFacts
  StateFacts RunFacts PropFront PropState.
Import ListNotations.
Open Scope N_scope.
Local Opaque pick_string pick_u64 pick_i64 pick_eta parse_f64.

(** ** C94 *)

Definition formatter (fff : str) : Prop := fff = lit "VDM" \/ fff = lit "VDO".

(** What state [p] holds in the slots [m]. *)
Definition remembers (p : NmeaParser) (m : slots) : Prop :=
  forall fff mid channel n, formatter fff -> n = 1 \/ n = 2 ->
    stored p (Text (fragment_key fff mid channel n)) =
    match m (fff, mid, channel) with Some (k, y) => if k =? n then Some (inl y) else None | None => None end.

Definition numbered (m : slots) : Prop := forall c k y, m c = Some (k, y) -> k = 1 \/ k = 2.

Lemma replay_none ovf l p : replay ovf (None :: l) p = (Ok PsIncomplete :: fst (replay ovf l p), snd (replay ovf l p)).
Proof. cbn [replay]. now destruct (replay ovf l p). Qed.

Lemma replay_some ovf now s l p :
  replay ovf (Some (now, s) :: l) p =
  (fst (parse_sentence ovf now s p) :: fst (replay ovf l (snd (parse_sentence ovf now s p))),
   snd (replay ovf l (snd (parse_sentence ovf now s p)))).
Proof. cbn [replay]. destruct (parse_sentence ovf now s p) as [r q]. cbn [fst snd]. now destruct (replay ovf l q). Qed.

(** A sentence that is no half touches no halves. *)
Lemma other_touches ovf s p e :
  (forall tt fff mid channel n x, ~ fragment s tt fff mid channel n x) -> touches ovf s p e -> no_half e.
Proof.
  intros Hs Ht fff mid channel n Hf Hn E. destruct Ht as [tt fff' mid' channel' n' payload k H1 H2|tt c n' k H1|]; [| |discriminate E].
  - exact (Hs _ _ _ _ _ _ H1).
  - apply Text_inj in E. now apply (fragment_key_gsv_key fff mid channel n tt c k).
Qed.

Lemma one_fragment_not_fragment s tt fff payload tt' fff' mid channel n x :
  one_fragment s tt fff payload -> ~ fragment s tt' fff' mid channel n x.
Proof.
  intros (count & number & id & ch & k & (more & Hs) & Hc & _) (fields & count' & number' & id' & Hs' & H0 & Hc' & _).
  destruct (vdm_with_unique _ _ _ _ _ _ _ Hs Hs') as (_ & _ & <-). cbn in H0. injection H0 as <-.
  pose proof (denotes_unique _ _ _ Hc Hc') as E. discriminate E.
Qed.

Lemma remembers_other ovf now s p m :
  (forall e, touches ovf s p e -> no_half e) -> remembers p m -> remembers (snd (parse_sentence ovf now s p)) m.
Proof.
  intros Ht H fff mid channel n Hf Hn. rewrite <- (H fff mid channel n Hf Hn). apply call_writes. intros T.
  now apply (Ht _ T fff mid channel n Hf Hn).
Qed.

Lemma assembly_step ovf h l m m' p q : assembled m h l m' -> numbered m -> remembers p m -> agree no_half p q ->
  results ovf h p = fst (replay ovf l q) /\ agree no_half (after ovf h p) (snd (replay ovf l q)) /\ remembers (after ovf h p) m' /\ numbered m'.
Proof.
  intros H. revert p q. induction H as [m|m now s h l m' Hs H IH|m m1 now s tt fff mid channel n x h l m' Hs Hm Hc H IH
    |m m1 now s tt fff mid channel n x k y whole h l m' Hs Hm Hk Hw Hc H IH]; intros p q Hu Hp Ha.
  - cbn [results run fst snd replay after]. auto.
  - assert (T : forall e, touches ovf s p e -> no_half e) by (intros e; now apply other_touches).
    rewrite results_cons, after_cons, replay_some. destruct (call_frame ovf now s no_half p q Ha T) as [E A].
    destruct (IH _ _ Hu (remembers_other _ _ _ _ _ T Hp) A) as (E' & A' & R). cbn [fst snd]. rewrite E, E'. auto.
  - pose proof (fragment_formatter _ _ _ _ _ _ _ Hs) as Hf. pose proof (fragment_number _ _ _ _ _ _ _ Hs) as Hn.
    assert (E : parse_sentence ovf now s p = (Ok PsIncomplete, push_string (fragment_key fff mid channel n) x p)).
    { assert (X : forall k, k = 1 \/ k = 2 -> k <> n -> kept p (fragment_key fff mid channel k) = None).
      { intros k Hk Hne. apply stored_kept_none. rewrite (Hp _ _ _ _ Hf Hk). destruct (m (fff, mid, channel)) as [[k' y]|] eqn:Em; [|reflexivity].
        rewrite (Hm _ _ eq_refl). now rewrite (proj2 (N.eqb_neq n k)) by congruence. }
      rewrite (fragment_vdm_step _ _ _ _ _ _ _ _ _ _ Hs). unfold first_step, second_step. destruct Hn as [-> | ->].
      - change (1 =? 1) with true. cbv iota beta. now rewrite X by (auto; discriminate).
      - change (2 =? 1) with false. cbv iota beta. now rewrite X by (auto; discriminate). }
    rewrite results_cons, after_cons, replay_none, E. cbn [fst snd].
    assert (R : remembers (push_string (fragment_key fff mid channel n) x p) m1).
    { destruct Hc as [C1 C2]. intros fff' mid' channel' n' Hf' Hn'. rewrite stored_push.
      destruct (decide (Text (fragment_key fff' mid' channel' n') = Text (fragment_key fff mid channel n))) as [Ek|Ek].
      - apply Text_inj in Ek. apply fragment_key_inj in Ek as (-> & -> & -> & ->); [|assumption|assumption].
        now rewrite C1, N.eqb_refl.
      - rewrite (Hp _ _ _ _ Hf' Hn').
        assert (D : (fff', mid', channel') = (fff, mid, channel) \/ (fff', mid', channel') <> (fff, mid, channel)).
        { destruct (decide ((fff', mid', channel') = (fff, mid, channel))); auto. }
        destruct D as [D|D]; [|now rewrite C2 by exact D].
        rewrite D, C1. injection D as -> -> ->. assert (Hne : n <> n') by congruence. rewrite (proj2 (N.eqb_neq n n') Hne).
        destruct (m (fff, mid, channel)) as [[k y]|] eqn:Em; [|reflexivity].
        rewrite (Hm _ _ eq_refl). now rewrite (proj2 (N.eqb_neq n n') Hne). }
    assert (A : agree no_half (push_string (fragment_key fff mid channel n) x p) q).
    { intros e He. rewrite stored_push. rewrite decide_False by now apply He. now apply Ha. }
    assert (U : numbered m1).
    { intros c k y Hy. destruct Hc as [C1 C2]. destruct (decide (c = (fff, mid, channel))) as [-> |D].
      - rewrite C1 in Hy. injection Hy as <- _. exact Hn.
      - rewrite C2 in Hy by exact D. exact (Hu _ _ _ Hy). }
    destruct (IH _ _ U R A) as (E' & A' & R'). rewrite E'. auto.
  - pose proof (fragment_formatter _ _ _ _ _ _ _ Hs) as Hf. pose proof (fragment_number _ _ _ _ _ _ _ Hs) as Hn.
    set (key := fragment_key fff mid channel k).
    pose proof (Hu _ _ _ Hm) as Hk12.
    assert (Ek : kept p key = Some y).
    { apply stored_kept. unfold key. rewrite (Hp _ _ _ _ Hf Hk12), Hm. now rewrite N.eqb_refl. }
    assert (E : parse_sentence ovf now s p = parse_sentence ovf now whole (without key p)).
    { rewrite (one_fragment_step _ _ _ _ _ _ _ Hw), (fragment_vdm_step _ _ _ _ _ _ _ _ _ _ Hs). unfold first_step, second_step, joined, key in *.
      destruct Hn as [-> | ->].
      - assert (k = 2) as -> by lia. change (1 =? 1) with true. cbv iota beta. now rewrite Ek.
      - assert (k = 1) as -> by lia. change (2 =? 1) with false. cbv iota beta. now rewrite Ek. }
    assert (A : agree no_half (without key p) q).
    { intros e He. rewrite stored_without. rewrite decide_False by now apply He. now apply Ha. }
    assert (R : remembers (without key p) m1).
    { destruct Hc as [C1 C2]. intros fff' mid' channel' n' Hf' Hn'. rewrite stored_without.
      destruct (decide (Text (fragment_key fff' mid' channel' n') = Text key)) as [Ek'|Ek'].
      - apply Text_inj in Ek'. apply fragment_key_inj in Ek' as (-> & -> & -> & ->); [|assumption|assumption]. now rewrite C1.
      - rewrite (Hp _ _ _ _ Hf' Hn'). destruct (decide ((fff', mid', channel') = (fff, mid, channel))) as [D|D]; [|now rewrite C2 by exact D].
        rewrite D, C1, Hm. injection D as -> -> ->. assert (Hne : k <> n') by (unfold key in Ek'; congruence).
        now rewrite (proj2 (N.eqb_neq k n') Hne). }
    assert (T : forall e, touches ovf whole (without key p) e -> no_half e).
    { intros e. apply other_touches. intros. eapply one_fragment_not_fragment. exact Hw. }
    assert (U : numbered m1).
    { intros c k' y' Hy. destruct Hc as [C1 C2]. destruct (decide (c = (fff, mid, channel))) as [-> |D].
      - rewrite C1 in Hy. discriminate Hy.
      - rewrite C2 in Hy by exact D. exact (Hu _ _ _ Hy). }
    rewrite results_cons, after_cons, replay_some, E. destruct (call_frame ovf now whole no_half (without key p) q A T) as [E1 A1].
    destruct (IH _ _ U (remembers_other _ _ _ _ _ T R) A1) as (E' & A' & R'). cbn [fst snd]. rewrite E1, E'. auto.
Qed.

(** Whatever halves are lost, repeated, reordered or mixed: results and all other memory are those of the
    assembled history, and the halves kept are the ones that wait. *)
Theorem c94_assembly ovf h l m : assembled no_halves h l m ->
  results ovf h new_parser = fst (replay ovf l new_parser) /\
  agree no_half (after ovf h new_parser) (snd (replay ovf l new_parser)) /\
  forall fff mid channel n x, formatter fff ->
    (waiting (after ovf h new_parser) fff mid channel n x /\ (n = 1 \/ n = 2) <-> m (fff, mid, channel) = Some (n, x)).
Proof.
  intros H. destruct (assembly_step ovf h l _ _ new_parser new_parser H) as (E & A & R & U).
  - discriminate.
  - intros fff mid channel n _ _. reflexivity.
  - intros e _. reflexivity.
  - split; [exact E|]. split; [exact A|]. intros fff mid channel n x Hf. unfold waiting. split.
    + intros [W Hn]. rewrite (R _ _ _ _ Hf Hn) in W. destruct (m (fff, mid, channel)) as [[k y]|]; [|discriminate W].
      destruct (N.eqb_spec k n) as [-> |]; [congruence|discriminate W].
    + intros Em. pose proof (U _ _ _ Em) as Hn. split; [|exact Hn]. rewrite (R _ _ _ _ Hf Hn), Em. now rewrite N.eqb_refl.
Qed.
Print Assumptions c94_assembly.

(** Every history can be assembled, in one way up to the form of the joined sentences. *)
Lemma whole_sentence tt fff payload : utf8_bytes tt = 2%nat -> plain tt -> formatter fff -> plain payload ->
  exists s, one_fragment s tt fff payload.
Proof.
  intros Ht Hp Hf Hl. set (body := lit "!" ++ tt ++ fff ++ lit ",1,1,,A," ++ payload).
  exists (body ++ lit "*" ++ nmea_checksum body). apply (check_one_fragment _ _ _ (lit "A") _ []).
  split; [|split; [discriminate|split; [exact Ht|exact Hf]]].
  exists body, (nmea_checksum body). split; [right; split; [reflexivity|apply nmea_checksum_no_star]|]. split; [now right|].
  split; [discriminate|]. split.
  - assert (plain fff) by (destruct Hf as [-> | ->]; now apply plain_lit_dec).
    repeat constructor; try (now apply plain_lit_dec); try assumption.
    apply plain_app; [now apply plain_lit_dec|]. now apply plain_app.
  - unfold body. cbn [join]. rewrite <- !app_assoc. reflexivity.
Qed.

Lemma fragment_plain s tt fff mid channel n x : fragment s tt fff mid channel n x ->
  utf8_bytes tt = 2%nat /\ plain tt /\ plain x.
Proof.
  intros (fields & count & number & id & ((b & g & _ & _ & (_ & Hp & _)) & _ & Ht & _) & _ & _ & _ & _ & _ & _ & _ & _ & _ & ->).
  apply Forall_cons_iff in Hp as [P1 P2]. apply (plain_app_inv (lit "!")) in P1 as [_ P1]. apply plain_app_inv in P1 as [P1 _].
  split; [exact Ht|]. split; [exact P1|]. destruct (Nat.lt_ge_cases 4 (List.length fields)) as [L|L].
  - rewrite List.Forall_forall in P2. apply P2. now apply nth_In.
  - rewrite nth_overflow by exact L. intros [].
Qed.

Lemma fragment_or_not s : (exists tt fff mid channel n x, fragment s tt fff mid channel n x) \/
  forall tt fff mid channel n x, ~ fragment s tt fff mid channel n x.
Proof.
  destruct (sentence_kind true ex_now s) as (f & K & Hf).
  destruct K as [r|tt fff payload Hs|tt fff mid channel a Hs|tt fff mid channel b Hs|tt c n body given Hs Hb].
  - right. intros tt fff mid channel n x Hx. specialize (Hf new_parser).
    rewrite (fragment_vdm_step _ _ _ _ _ _ _ _ _ _ Hx) in Hf.
    assert (S : saved_fragments (snd ((if n =? 1 then first_step else second_step) true ex_now tt fff mid channel x new_parser)) <> ∅).
    { destruct (n =? 1); unfold first_step, second_step, kept; cbn [saved_fragments new_parser]; rewrite lookup_empty; cbn [snd push_string saved_fragments];
        apply insert_non_empty. }
    rewrite Hf in S. now apply S.
  - right. intros. eapply one_fragment_not_fragment. exact Hs.
  - left. eauto 10.
  - left. eauto 10.
  - right. intros tt' fff mid channel k x Hx. eapply fragment_not_gsv; eassumption.
Qed.

Theorem c94_every_history h : exists l m, assembled no_halves h l m.
Proof.
  assert (G : forall h m, (forall c k y, m c = Some (k, y) -> plain y) -> exists l m', assembled m h l m').
  { clear h. induction h as [|[now s] h IH]; intros m Hm.
    - exists [], m. constructor.
    - destruct (fragment_or_not s) as [(tt & fff & mid & channel & n & x & Hs)|Hs].
      + destruct (fragment_plain _ _ _ _ _ _ _ Hs) as (Ht & Hp & Hx).
        set (put := fun v c => if decide (c = (fff, mid, channel)) then v else m c).
        assert (C : forall v, changed m (fff, mid, channel) v (put v)).
        { intros v. split; [|intros k' D]; unfold put; [now rewrite decide_True|now rewrite decide_False]. }
        assert (P : forall v, (forall k y, v = Some (k, y) -> plain y) -> forall c k y, put v c = Some (k, y) -> plain y).
        { intros v Hv c k y. unfold put. destruct (decide _); [apply Hv|apply Hm]. }
        assert (Pw : forall k y, Some (n, x) = Some (k, y) -> plain y) by (intros k y E; injection E as <- <-; exact Hx).
        destruct (m (fff, mid, channel)) as [[k y]|] eqn:Em.
        * destruct (N.eq_dec k n) as [-> |D].
          -- destruct (IH (put (Some (n, x))) (P (Some (n, x)) Pw)) as (l & m' & A).
             exists (None :: l), m'. eapply assembled_wait; [exact Hs| |apply C|exact A]. intros k y' E. congruence.
          -- destruct (whole_sentence tt fff (joined n x y) Ht Hp (fragment_formatter _ _ _ _ _ _ _ Hs)) as (whole & Hw).
             { unfold joined. pose proof (Hm _ _ _ Em). destruct (n =? 1); now apply plain_app. }
             destruct (IH (put None) (P None ltac:(discriminate))) as (l & m' & A).
             exists (Some (now, whole) :: l), m'. eapply assembled_join; [exact Hs|exact Em|exact D|exact Hw|apply C|exact A].
        * destruct (IH (put (Some (n, x))) (P (Some (n, x)) Pw)) as (l & m' & A).
          exists (None :: l), m'. eapply assembled_wait; [exact Hs| |apply C|exact A]. intros k y' E. congruence.
      + destruct (IH m Hm) as (l & m' & A). exists (Some (now, s) :: l), m'. now apply assembled_other. }
  apply G. discriminate.
Qed.
Print Assumptions c94_every_history.

(** ** C75 for AIS messages *)

Lemma assembled_app m h l m1 h' l' m' : assembled m h l m1 -> assembled m1 h' l' m' -> assembled m (h ++ h') (l ++ l') m'.
Proof.
  intros H H'. induction H; cbn [app]; [exact H'| | |].
  - apply assembled_other; auto.
  - eapply assembled_wait; eauto.
  - eapply assembled_join; eauto.
Qed.

Definition put (m : slots) (k : slot) (v : option (N * str)) : slots := fun k' => if decide (k' = k) then v else m k'.

Lemma put_changed m k v : changed m k v (put m k v).
Proof. split; [|intros k' D]; unfold put; [now rewrite decide_True|now rewrite decide_False]. Qed.

Lemma in_step_assembled tt fff mid channel ts ws m :
  Forall (transmitted tt fff mid channel) ts -> right_wholes tt fff ts ws -> (forall y, m (fff, mid, channel) <> Some (2, y)) ->
  (forall k y, m (fff, mid, channel) = Some (k, y) -> k = 1 \/ k = 2) ->
  exists m', assembled m (flat_map calls_of ts) (in_step ts ws) m'.
Proof.
  intros H Hw. revert m H. induction Hw as [|t w ts ws Hw _ IH]; intros m H Hm Hn.
  - exists m. constructor.
  - apply Forall_cons_iff in H as [[F1 F2] H]. set (k := (fff, mid, channel)).
    set (m1 := put m k (Some (1, first_payload t))). set (m2 := put m1 k None).
    destruct (IH m2 H) as (m' & A).
    { intros y. unfold m2, put. rewrite decide_True by reflexivity. discriminate. }
    { intros k' y. unfold m2, put. rewrite decide_True by reflexivity. discriminate. }
    exists m'. cbn [flat_map calls_of app in_step combine fst snd]. fold (in_step ts ws).
    eapply (assembled_wait m m1); [exact F1| |apply put_changed|].
    + intros k' y E. destruct (Hn _ _ E) as [-> | ->]; [reflexivity|]. now apply Hm in E.
    + eapply (assembled_join m1 m2); [exact F2| | | |apply put_changed|exact A].
      * unfold m1, put. now rewrite decide_True.
      * discriminate.
      * exact Hw.
Qed.

Lemma shifted_assembled tt fff mid channel b ts ws m :
  Forall (transmitted tt fff mid channel) ts -> mixed_wholes tt fff b ts ws -> m (fff, mid, channel) = Some (2, b) ->
  exists m', assembled m (flat_map calls_of ts) (shifted ts ws) m'.
Proof.
  intros H Hw. revert m H. induction Hw as [b|b t ts w ws Hw _ IH]; intros m H Hm.
  - exists m. constructor.
  - apply Forall_cons_iff in H as [[F1 F2] H]. set (k := (fff, mid, channel)).
    set (m1 := put m k None). set (m2 := put m1 k (Some (2, second_payload t))).
    destruct (IH m2 H) as (m' & A).
    { unfold m2, put. now rewrite decide_True. }
    exists m'. cbn [flat_map calls_of app shifted combine fst snd]. fold (shifted ts ws).
    eapply (assembled_join m m1); [exact F1|exact Hm|discriminate|exact Hw|apply put_changed|].
    eapply (assembled_wait m1 m2); [exact F2| |apply put_changed|exact A].
    intros k' y. unfold m1, put. rewrite decide_True by reflexivity. discriminate.
Qed.

Lemma assembled_numbered m h l m' : assembled m h l m' -> numbered m -> numbered m'.
Proof.
  intros A. induction A as [| |m m1 now s tt fff mid channel n x h l m' Hs Hm [C1 C2] _ IH
    |m m1 now s tt fff mid channel n x k y whole h l m' Hs Hm Hk Hw [C1 C2] _ IH]; intros U; auto; apply IH.
  - intros c k y Hy. destruct (decide (c = (fff, mid, channel))) as [-> |D].
    + rewrite C1 in Hy. injection Hy as <- _. exact (fragment_number _ _ _ _ _ _ _ Hs).
    + rewrite C2 in Hy by exact D. exact (U _ _ _ Hy).
  - intros c k' y' Hy. destruct (decide (c = (fff, mid, channel))) as [-> |D].
    + rewrite C1 in Hy. discriminate Hy.
    + rewrite C2 in Hy by exact D. exact (U _ _ _ Hy).
Qed.

(** As long as no second half waits, any number of complete transmissions in order is decoded right, also after
    first halves whose second half was lost. *)
Theorem c75_fragments_in_step_partial ovf h l m tt fff mid channel ts ws :
  assembled no_halves h l m -> (forall y, m (fff, mid, channel) <> Some (2, y)) ->
  Forall (transmitted tt fff mid channel) ts -> right_wholes tt fff ts ws ->
  results ovf (h ++ flat_map calls_of ts) new_parser = fst (replay ovf (l ++ in_step ts ws) new_parser).
Proof.
  intros A Hm Ht Hw. assert (U : numbered m) by (apply (assembled_numbered _ _ _ _ A); discriminate).
  destruct (in_step_assembled tt fff mid channel ts ws m Ht Hw Hm (U _)) as (m' & B).
  now destruct (c94_assembly ovf _ _ _ (assembled_app _ _ _ _ _ _ _ A B)).
Qed.
Print Assumptions c75_fragments_in_step_partial.

(** After a lost first half every following report joins two transmissions, however many arrive complete and in
    order. *)
Theorem c75_lost_first_half_refuted ovf h l m tt fff mid channel b ts ws :
  assembled no_halves h l m -> m (fff, mid, channel) = Some (2, b) ->
  Forall (transmitted tt fff mid channel) ts -> mixed_wholes tt fff b ts ws ->
  results ovf (h ++ flat_map calls_of ts) new_parser = fst (replay ovf (l ++ shifted ts ws) new_parser).
Proof.
  intros A Hm Ht Hw. destruct (shifted_assembled tt fff mid channel b ts ws m Ht Hw Hm) as (m' & B).
  now destruct (c94_assembly ovf _ _ _ (assembled_app _ _ _ _ _ _ _ A B)).
Qed.
Print Assumptions c75_lost_first_half_refuted.

(** ** Examples *)

Definition ex_other_second : str := lit "!AIVDM,2,2,1,A,66666666660,2".
Definition ex_other_payload : str := lit "66666666660".
Definition ex_mixed : str :=
  lit "!AIVDM,1,1,,A,55?MbV02;H;s<HtKR20EHE:0@T4@Dn2222222216L961O5Gf0NSQEp6ClRp866666666660,2".

Lemma ex_other_fragment : fragment ex_other_second (lit "AI") (lit "VDM") 1 (lit "A") 2 ex_other_payload.
Proof.
  apply (check_fragment _ _ _ _ _ _ _ [lit "2"]); [|now right|reflexivity].
  apply check_vdm; [|reflexivity]. vm_compute. auto.
Qed.

Lemma ex_mixed_one : one_fragment ex_mixed (lit "AI") (lit "VDM") (ex_first_payload ++ ex_other_payload).
Proof.
  apply (check_one_fragment _ _ _ (lit "A") _ [lit "2"]). apply check_vdm; [|reflexivity].
  vm_compute. auto.
Qed.

(** The destination in a static report. *)
Definition reported_destination (r : outcome ParseError ParsedSentence) : option str :=
  match r with Ok (PsVesselStaticData d) => vsd_destination d | _ => None end.

(** A second half arrives twice, each time with other contents, then the first half twice, then a second half. *)
Definition ex_repeated : history :=
  [(ex_now, ex_second); (ex_now, ex_other_second); (ex_now, ex_whole); (ex_now, ex_first); (ex_now, ex_first);
   (ex_now, ex_second)].

Example c94_example :
  let l := [None; None; Some (ex_now, ex_whole); Some (ex_now, ex_mixed); None; Some (ex_now, ex_whole)] in
  (exists m, assembled no_halves ex_repeated l m) /\
  map reported_destination (results true ex_repeated new_parser) =
    [None; None; Some (lit "NEW YORK"); Some (lit "NEW YORK  XXXXXXXXXX"); None; Some (lit "NEW YORK")] /\
  map reported_destination (fst (replay true l new_parser)) =
    [None; None; Some (lit "NEW YORK"); Some (lit "NEW YORK  XXXXXXXXXX"); None; Some (lit "NEW YORK")].
Proof.
  cbv zeta. split; [|split; vm_compute; reflexivity]. pose (k := (lit "VDM", 1, lit "A")).
  pose (m1 := put no_halves k (Some (2, ex_second_payload))). pose (m2 := put m1 k (Some (2, ex_other_payload))).
  pose (m3 := put m2 k None). pose (m4 := put m3 k (Some (1, ex_first_payload))). exists (put m4 k None).
  eapply (assembled_wait no_halves m1); [exact ex_second_fragment|intros ? ? [=]|apply put_changed|].
  eapply (assembled_wait m1 m2); [exact ex_other_fragment| |apply put_changed|].
  { intros n y. unfold m1, put. rewrite decide_True by reflexivity. now intros [= <- _]. }
  apply assembled_other.
  { intros tt fff mid channel n x. apply (one_fragment_not_fragment _ _ _ _ _ _ _ _ _ _ ex_whole_one). }
  eapply (assembled_join m2 m3);
    [exact ex_first_fragment|now apply (put_changed m1)|discriminate|exact ex_mixed_one|apply put_changed|].
  eapply (assembled_wait m3 m4); [exact ex_first_fragment| |apply put_changed|].
  { intros n y. unfold m3, put. rewrite decide_True by reflexivity. discriminate. }
  eapply (assembled_join m4);
    [exact ex_second_fragment|now apply (put_changed m3)|discriminate|exact ex_whole_one|apply put_changed|constructor].
Qed.

Definition ex_transmission : transmission :=
  {| first_at := ex_now; first_sentence := ex_first; first_payload := ex_first_payload;
     second_at := ex_now; second_sentence := ex_second; second_payload := ex_second_payload |}.
Definition ex_other_transmission : transmission :=
  {| first_at := ex_now; first_sentence := ex_first; first_payload := ex_first_payload;
     second_at := ex_now; second_sentence := ex_other_second; second_payload := ex_other_payload |}.

Example c75_fragments_example :
  let ts := [ex_transmission; ex_other_transmission; ex_transmission] in
  (exists m, assembled no_halves [(ex_now, ex_first)] [None] m /\ forall y, m (lit "VDM", 1, lit "A") <> Some (2, y)) /\
  (exists m, assembled no_halves [(ex_now, ex_other_second)] [None] m /\
     m (lit "VDM", 1, lit "A") = Some (2, ex_other_payload)) /\
  Forall (transmitted (lit "AI") (lit "VDM") 1 (lit "A")) ts /\
  right_wholes (lit "AI") (lit "VDM") ts [ex_whole; ex_mixed; ex_whole] /\
  mixed_wholes (lit "AI") (lit "VDM") ex_other_payload ts [ex_mixed; ex_whole; ex_mixed] /\
  map reported_destination (results true ((ex_now, ex_first) :: flat_map calls_of ts) new_parser) =
    [None; None; Some (lit "NEW YORK"); None; Some (lit "NEW YORK  XXXXXXXXXX"); None; Some (lit "NEW YORK")] /\
  map reported_destination (results true ((ex_now, ex_other_second) :: flat_map calls_of ts) new_parser) =
    [None; Some (lit "NEW YORK  XXXXXXXXXX"); None; Some (lit "NEW YORK"); None; Some (lit "NEW YORK  XXXXXXXXXX");
     None].
Proof.
  cbv zeta. pose (k := (lit "VDM", 1, lit "A")). split; [|split; [|split; [|split; [|split; [|split]]]]].
  - exists (put no_halves k (Some (1, ex_first_payload))). split.
    + eapply assembled_wait; [exact ex_first_fragment|intros ? ? [=]|apply put_changed|constructor].
    + intros y. unfold put. rewrite decide_True by reflexivity. discriminate.
  - exists (put no_halves k (Some (2, ex_other_payload))). split.
    + eapply assembled_wait; [exact ex_other_fragment|intros ? ? [=]|apply put_changed|constructor].
    + unfold put. now rewrite decide_True.
  - repeat constructor; auto using ex_first_fragment, ex_second_fragment, ex_other_fragment.
  - repeat constructor; auto using ex_whole_one, ex_mixed_one.
  - repeat constructor; auto using ex_whole_one, ex_mixed_one.
  - vm_compute. reflexivity.
  - vm_compute. reflexivity.
Qed.
