(** C111: everything a receiver writes is read back, whatever else is received in between. *)
From stdpp Require Import gmap.
From Coq Require Import List NArith ZArith Bool String Lia Permutation.
From Verif Require Import Base Str F64 Chrono Types Util AisMod Vdm Gnss Parser
  SpecText SpecResult SpecAis SpecTime SpecState SpecReal SpecFields SpecGnss SpecSender SpecJournal StrFacts FrontFacts CallFacts
  ResultFacts VdmFacts StateFacts RunFacts PropFront PropState PropGsv PropSender PropSenderGsv PropLocal Cases1.
Import ListNotations.
Open Scope N_scope.

Lemma one_call ovf now s p r : parse_sentence ovf now s p = (r, p) ->
  results ovf [(now, s)] p = [r] /\ after ovf [(now, s)] p = p.
Proof. intros E. unfold results, after. cbn [run]. rewrite E. split; reflexivity. Qed.

Lemma combine_fst {A B} (l : list A) (l' : list B) : List.length l = List.length l' -> map fst (combine l l') = l.
Proof. revert l'. induction l as [|a l IH]; intros [|b l'] H; cbn in *; try lia; [reflexivity|]. f_equal. apply IH. lia. Qed.
Lemma combine_snd {A B} (l : list A) (l' : list B) : List.length l = List.length l' -> map snd (combine l l') = l'.
Proof. revert l'. induction l as [|a l IH]; intros [|b l'] H; cbn in *; try lia; [reflexivity|]. f_equal. apply IH. lia. Qed.

Lemma entry_read ovf e p : in_order e -> no_groups p ->
  understood (je_system e) (je_news e) (results ovf (told (je_talker e) (je_news e)) p) /\
  after ovf (told (je_talker e) (je_news e)) p = p.
Proof.
  destruct e as [tt nav n]. unfold in_order. cbn [je_talker je_system je_news]. intros (Ht & Hp & Hn & Hs) G.
  destruct n as [now x|now x|now x|now x|now x|nows l]; cbn [tellable told understood] in *.
  - destruct Hs as [Hc Hs]. destruct (c111_gga ovf now tt nav x p Ht Hp Hn Hc Hs) as (d & E & R).
    apply one_call in E as [-> ->]. eauto.
  - destruct Hs as [Hc Hs]. destruct (c111_rmc ovf now tt nav x p Ht Hp Hn Hc Hs) as (d & E & R).
    apply one_call in E as [-> ->]. eauto.
  - destruct Hs as [Hc Hs]. destruct (c111_gll ovf now tt nav x p Ht Hp Hn Hc Hs) as (d & E & R).
    apply one_call in E as [-> ->]. eauto.
  - destruct (c111_vtg ovf now tt nav x p Ht Hp Hn Hs) as (d & E & R). apply one_call in E as [-> ->]. eauto.
  - destruct (c111_gsa ovf now tt nav x p Ht Hp Hn Hs) as (d & E & R). apply one_call in E as [-> ->]. eauto.
  - destruct Hs as (L & Hs & K). set (ns := map N.of_nat (seq 1 (List.length nows))).
    assert (Ln : List.length nows = List.length ns) by (unfold ns; now rewrite map_length, seq_length).
    set (calls := map (fun ni : datetime * N => (snd ni, (fst ni, written_sentence tt (lit "GSV") (page_fields l (snd ni))))) (combine nows ns)).
    destruct (c111_gsv ovf tt nav l calls p Ht Hp Hn L Hs (G _ _)) as [E A].
    + unfold calls. rewrite map_map. cbn [fst]. change (fun x : datetime * N => snd x) with (@snd datetime N).
      rewrite (combine_snd _ _ Ln). unfold ns, numbers_to. rewrite <- K, Nat2N.id. reflexivity.
    + apply List.Forall_forall. intros x Hx. apply in_map_iff in Hx as (y & <- & _). reflexivity.
    + assert (M : map snd calls = map (fun ni : datetime * N => (fst ni, written_sentence tt (lit "GSV") (page_fields l (snd ni)))) (combine nows ns)).
      { unfold calls. rewrite map_map. reflexivity. }
      rewrite M in E, A. rewrite E, A. split; [|reflexivity]. f_equal. f_equal. rewrite <- K, Nat2N.id. reflexivity.
Qed.

(** A whole journal, from any number of talkers: every entry is understood, and nothing stays behind. *)
Theorem c111_journal ovf j p : Forall in_order j -> no_groups p ->
  (exists answers, results ovf (journal_calls j) p = List.concat answers /\
     Forall2 (fun e a => understood (je_system e) (je_news e) a) j answers) /\
  after ovf (journal_calls j) p = p.
Proof.
  intros H G. induction H as [|e j He _ [(answers & E & F) A]].
  - split; [exists []; split; [reflexivity|constructor]|reflexivity].
  - destruct (entry_read ovf e p He G) as [U Ae]. unfold journal_calls. cbn [flat_map]. fold (journal_calls j).
    rewrite results_app, after_app, Ae. split; [|exact A].
    exists (results ovf (told (je_talker e) (je_news e)) p :: answers). split; [cbn [List.concat]; now rewrite E|].
    constructor; [exact U|exact F].
Qed.
Print Assumptions c111_journal.

Lemma told_dollar e now s : in_order e -> In (now, s) (told (je_talker e) (je_news e)) ->
  exists fff fields, gnss_with s (je_talker e) fff fields.
Proof.
  destruct e as [tt nav n]. unfold in_order. cbn [je_talker je_system je_news]. intros (Ht & Hp & _ & Hs).
  destruct n as [now0 x|now0 x|now0 x|now0 x|now0 x|nows l]; cbn [told In tellable] in *.
  1-5: intros [E|[]]; injection E as _ <-.
  - exists (lit "GGA"), (gga_written x).
    apply written_gnss; [assumption|assumption|now apply plain_lit_dec|discriminate|]. unfold gga_written. repeat constructor; plain_text.
  - destruct Hs as (_ & _ & _ & _ & _ & _ & _ & _ & _ & Hm). exists (lit "RMC"), (rmc_written x).
    apply written_gnss; [assumption|assumption|now apply plain_lit_dec|discriminate|]. unfold rmc_written. repeat constructor; plain_text.
  - exists (lit "GLL"), (gll_written x).
    apply written_gnss; [assumption|assumption|now apply plain_lit_dec|discriminate|]. unfold gll_written. repeat constructor; plain_text.
  - exists (lit "VTG"), (vtg_written x).
    apply written_gnss; [assumption|assumption|now apply plain_lit_dec|discriminate|]. unfold vtg_written. repeat constructor; plain_text.
  - exists (lit "GSA"), (gsa_written x).
    apply written_gnss; [assumption|assumption|now apply plain_lit_dec|discriminate|]. unfold gsa_written.
    apply List.Forall_app. split; [repeat constructor; plain_text|]. apply List.Forall_app. split; [|apply List.Forall_app; split].
    + apply List.Forall_forall. intros f Hf. apply in_map_iff in Hf as (n & <- & _). plain_text.
    + apply List.Forall_forall. intros f Hf. apply repeat_spec in Hf as ->. now apply plain_lit_dec.
    + repeat constructor; plain_text.
  - intros Hi. apply in_map_iff in Hi as ([now0 i] & E & _). cbn [fst snd] in E. injection E as _ <-.
    exists (lit "GSV"), (page_fields l i).
    apply written_gnss; [assumption|assumption|now apply plain_lit_dec|discriminate|].
    unfold page_fields. apply List.Forall_app. split; [repeat constructor; apply digits_of_plain|].
    apply List.Forall_forall. intros f Hf. apply in_flat_map in Hf as (y & _ & Hf).
    unfold satellite_fields in Hf. cbn [In] in Hf.
    destruct Hf as [<-|[<-|[<-|[<-|[]]]]]; plain_text.
Qed.

(** The same while AIS sentences, right or wrong, arrive in between: they change nothing about what is
    understood, and are answered as if the receiver were silent. *)
Theorem c111_journal_among_ais ovf j m p : Forall in_order j -> no_groups p ->
  stream 0 m = journal_calls j ->
  (forall c, In (1, c) m -> forall tt fields, ~ gsv_with (snd c) tt fields) ->
  (forall i c, In (i, c) m -> i = 0 \/ i = 1) ->
  (exists answers, stream_results ovf 0 m p = List.concat answers /\
     Forall2 (fun e a => understood (je_system e) (je_news e) a) j answers) /\
  stream_results ovf 1 m p = results ovf (stream 1 m) p.
Proof.
  intros Hj G Hm H1 H01.
  assert (H0 : forall c, In (0, c) m -> forall tt fff fields, ~ vdm_with (snd c) tt fff fields).
  { intros [now s] Hc tt fff fields (Hs & _).
    assert (I0 : In (now, s) (journal_calls j)).
    { rewrite <- Hm. unfold stream. apply in_map_iff. exists (0, (now, s)). split; [reflexivity|].
      apply filter_In. split; [exact Hc|reflexivity]. }
    unfold journal_calls in I0. apply in_flat_map in I0 as (e & He & Ie).
    rewrite List.Forall_forall in Hj. destruct (told_dollar _ _ _ (Hj e He) Ie) as (fff' & fields' & Hs' & _).
    pose proof (sentence_unique _ _ _ Hs Hs') as E. discriminate E. }
  pose proof (c14_ais_and_gnss_independent ovf m p H0 H1 H01) as S.
  rewrite (S 0 (or_introl eq_refl)), (S 1 (or_intror eq_refl)), Hm. split; [|reflexivity].
  exact (proj1 (c111_journal ovf j p Hj G)).
Qed.
Print Assumptions c111_journal_among_ais.

(** A receiver of several systems; between the two sentences about its satellites an AIS sentence arrives. *)
Definition ex_journal : list entry_of_journal :=
  [mk_entry (lit "GN") NavCombination (NewsGga ex_now ex_sent_gga);
   mk_entry (lit "GL") NavGlonass (NewsSatellites [ex_now; ex_now] ex_seen);
   mk_entry (lit "GP") NavGps (NewsGll ex_now ex_sent_gll);
   mk_entry (lit "GP") NavGps (NewsVtg ex_now ex_sent_vtg);
   mk_entry (lit "GA") NavGalileo (NewsGsa ex_now ex_sent_gsa);
   mk_entry (lit "GP") NavGps (NewsRmc (mk_datetime 2020 1 1 0 0 0 0) ex_sent_rmc)].

Definition ex_heard : str := lit "!AIVDM,1,1,,A,15RTgt0PAso;90TKcjM8h6g208CQ,0*4A".
Definition ex_both : interleaving :=
  let calls := map (fun c => (0, c)) (journal_calls ex_journal) in
  firstn 2 calls ++ [(1, (ex_now, ex_heard))] ++ skipn 2 calls.

Lemma ex_journal_sound : Forall in_order ex_journal.
Proof.
  destruct c111_others_example as (Hl & Hv & Hs & _). unfold ex_journal.
  repeat (apply List.Forall_cons; [|]); [..|apply List.Forall_nil].
  all: unfold in_order; cbn [je_talker je_system je_news tellable].
  all: (split; [reflexivity|]); (split; [now apply plain_lit_dec|]); (split; [left; vm_compute; tauto|]).
  - split; [vm_compute; repeat split; intuition discriminate|apply c111_gga_example].
  - split; [cbn; lia|]. split; [apply c111_gsv_example|reflexivity].
  - split; [vm_compute; repeat split; intuition discriminate|exact Hl].
  - exact Hv.
  - exact Hs.
  - split; [cbn; lia|apply c111_rmc_example].
Qed.

Example c111_journal_example ovf :
  (exists g l v s r, stream_results ovf 0 ex_both new_parser =
     [Ok (PsGga g); Ok PsIncomplete; Ok (PsGsv (map (satellite_entry NavGlonass) ex_seen));
      Ok (PsGll l); Ok (PsVtg v); Ok (PsGsa s); Ok (PsRmc r)] /\
     rmc_read_back (mk_datetime 2020 1 1 0 0 0 0) NavGps ex_sent_rmc r) /\
  stream_results ovf 1 ex_both new_parser = [fst (parse_sentence ovf ex_now ex_heard new_parser)].
Proof.
  pose proof ex_journal_sound as J.
  assert (B : Forall (fun x => fst x = 0 \/ x = (1, (ex_now, ex_heard))) ex_both).
  { unfold ex_both, ex_journal, journal_calls.
    cbn [flat_map told map firstn skipn app combine seq List.length je_talker je_news fst snd].
    repeat (apply List.Forall_cons; [first [left; exact eq_refl|right; exact eq_refl]|]). apply List.Forall_nil. }
  rewrite List.Forall_forall in B.
  destruct (c111_journal_among_ais ovf ex_journal ex_both new_parser J) as [(answers & E & F) E1].
  - intros tt c n _. reflexivity.
  - reflexivity.
  - intros c Hc tt fields (Hs & _). apply B in Hc as [Hc|Hc]; [discriminate Hc|]. injection Hc as ->. cbn [snd] in Hs.
    assert (V : one_fragment ex_heard (lit "AI") (lit "VDM") (lit "15RTgt0PAso;90TKcjM8h6g208CQ")) by message.
    destruct V as (? & ? & ? & ? & ? & (? & V & _) & _). pose proof (sentence_unique _ _ _ V Hs) as X. discriminate X.
  - intros i c Hc. apply B in Hc as [Hc|Hc]; [now left|right]. now injection Hc.
  - split.
    + unfold ex_journal in F. repeat match goal with H : Forall2 _ _ _ |- _ => inversion H; subst; clear H end.
      cbn [je_system je_news understood] in *.
      repeat match goal with H : exists _, _ /\ _ |- _ => destruct H as (? & -> & ?) end. subst.
      do 5 eexists. split; [rewrite E; exact eq_refl|eassumption].
    + rewrite E1. exact eq_refl.
Qed.
