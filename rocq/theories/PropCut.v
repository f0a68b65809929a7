(** C85: what a sentence that lost its end still says. *)
From stdpp Require Import gmap.
From Coq Require Import List NArith ZArith Arith Bool String Lia.
From Verif Require Import Base Str F64 Chrono Types Util AisMod Vdm Gnss Parser
  SpecText SpecResult SpecAis SpecTime SpecState SpecFields SpecDamage SpecLocal SpecColumns
  StrFacts FrontFacts CallFacts ResultFacts VdmFacts PropFront PropDamage PropFields PropLocal PropColumns PropSpot PropState.
Import ListNotations.
Open Scope N_scope.
Local Opaque pick_string pick_u64 pick_i64 pick_eta parse_f64 be_value.

(** Number of commas in a text. *)
Definition commas (s : str) : nat := count_occ N.eq_dec s 44.

(** The fields of a cut text are those of the whole text, the last one cut. *)
Lemma split_cut a b : exists l x y m, split_on 44 a = l ++ [x] /\ split_on 44 (a ++ b) = l ++ (x ++ y) :: m /\ List.length l = commas a.
Proof.
  induction a as [|c a (l & x & y & m & E1 & E2 & L)].
  - cbn [app]. pose proof (split_on_nonempty 44 b) as H. destruct (split_on 44 b) as [|w ws] eqn:E; [congruence|].
    exists [], [], w, ws. repeat split; reflexivity.
  - unfold commas. cbn [app split_on count_occ]. destruct (N.eqb_spec c 44) as [->|D].
    + exists ([] :: l), x, y, m. rewrite E1, E2. destruct (N.eq_dec 44 44); [|congruence]. repeat split.
      cbn [List.length]. now rewrite L.
    + rewrite E1, E2. destruct (N.eq_dec c 44); [congruence|]. destruct l as [|w l].
      * exists [], (c :: x), y, m. repeat split. exact L.
      * exists ((c :: w) :: l), x, y, m. repeat split. exact L.
Qed.

Lemma sent_fields body fs : sentence (sent body) fs -> has_fields body fs.
Proof.
  intros (body' & given & Hb & _ & Hf).
  assert (Hb' : has_body (sent body) body (nmea_checksum body)) by (right; split; [reflexivity|apply nmea_checksum_no_star]).
  destruct (has_body_unique _ _ _ _ _ Hb Hb') as [<- _]. exact Hf.
Qed.

Lemma bare_sentence body fs : ~ In 42 body -> has_fields body fs -> sentence body fs.
Proof. intros N H. exists body, []. split; [left; auto|]. split; [now left|exact H]. Qed.

(** GNSS: the data whose fields arrived completely (with the comma behind them) are reported as if nothing was lost. *)
Theorem c85_cut_gnss_partial ovf ovf' now received lost tt fff fs p p' r r' :
  gnss_with (sent (received ++ lost)) tt fff fs -> In fff [lit "GGA"; lit "RMC"; lit "GSA"; lit "GLL"; lit "VTG"] ->
  ~ In 42 received -> clock now -> (0 <= dt_year now)%Z ->
  fst (parse_sentence ovf now (sent (received ++ lost)) p) = Ok r -> fst (parse_sentence ovf' now received p') = Ok r' ->
  columns r r' <> [] /\
  forall fields P, In (fields, P) (columns r r') -> (forall i, In i fields -> (i + 2 <= commas received)%nat) -> P.
Proof.
  intros G Hf N C Y H H'. destruct G as (S & Hn & Ht). pose proof (sent_fields _ _ S) as F.
  rewrite has_fields_split in F. destruct (split_cut received lost) as (l & x & y & m & E1 & E2 & L). rewrite E2 in F.
  destruct l as [|w l].
  { exfalso. rewrite (c04_no_comma_invalid ovf' now received p' received []) in H'; [discriminate| | |].
    - left; auto.
    - now left.
    - intros I. cbn in L. symmetry in L. apply count_occ_not_In in L. contradiction. }
  cbn [app] in F. injection F as Ew F.
  assert (G' : gnss_with received tt fff (l ++ [x])).
  { split; [|split; [destruct l; discriminate|exact Ht]]. apply bare_sentence; [exact N|].
    apply has_fields_split. rewrite E1. cbn [app]. f_equal. exact Ew. }
  destruct (c109_own_fields ovf ovf' now _ _ tt tt fff fs (l ++ [x]) p p' r r' (conj S (conj Hn Ht)) G' Hf C Y H H') as [D A].
  split; [exact D|]. intros fields P Hin Hi. apply (A fields P Hin). intros i I. specialize (Hi i I).
  rewrite F. unfold fld. cbn [List.length] in L. rewrite !app_nth1 by lia. reflexivity.
Qed.
Print Assumptions c85_cut_gnss_partial.

(** AIS: if the cut is in the payload or behind it, the payload received is the start of the one sent, and the data whose
    bits arrived are reported as if nothing was lost. *)
Theorem c85_cut_ais_partial ovf ovf' now received lost tt fff tt' fff' x a p p' r r' k :
  one_fragment (sent (received ++ lost)) tt fff x -> ~ In 42 received -> one_fragment received tt' fff' a -> a <> [] ->
  fst (parse_sentence ovf now (sent (received ++ lost)) p) = Ok r -> r <> PsIncomplete ->
  fst (parse_sentence ovf' now received p') = Ok r' -> r' <> PsIncomplete ->
  bits_at (payload_bits x) 0 6 = k -> k <> 24 ->
  (exists b, x = a ++ b) /\ data k r r' <> [] /\
  forall places P, In (places, P) (data k r r') -> (forall i n, In (i, n) places -> (i + n <= 6 * List.length a)%nat) -> P.
Proof.
  intros O N O' Ha H I H' I' K K24.
  assert (X : exists b, x = a ++ b).
  { destruct O as (c1 & c2 & c3 & c4 & n & (more & (S & _)) & _). destruct O' as (d1 & d2 & d3 & d4 & n' & (more' & (S' & _)) & _).
    apply sent_fields in S. rewrite has_fields_split in S.
    destruct S' as (body & given & Hb & _ & S').
    assert (Hb' : has_body received received []) by (left; auto). destruct (has_body_unique _ _ _ _ _ Hb Hb') as [-> _].
    rewrite has_fields_split in S'. destruct (split_cut received lost) as (l & z & y & m & E1 & E2 & _).
    rewrite E1 in S'. rewrite E2 in S. clear - S S'.
    destruct l as [|l1 [|l2 [|l3 [|l4 [|l5 [|l6 l]]]]]]; cbn [app] in S, S'; try discriminate S'.
    - injection S' as _ _ _ _ _ -> _. injection S as _ _ _ _ _ -> _. now exists y.
    - injection S' as _ _ _ _ _ -> _. injection S as _ _ _ _ _ -> _. exists []. now rewrite app_nil_r. }
  split; [exact X|]. destruct X as (b & ->).
  assert (C : completes (sent (received ++ lost)) tt fff p (a ++ b)) by (now apply complete_one).
  assert (C' : completes received tt' fff' p' (a ++ [])) by (rewrite app_nil_r; now apply complete_one).
  exact (c108_common_start_partial ovf ovf' now _ _ p p' tt tt' fff fff' a b [] r r' k C H I C' H' I' Ha K K24).
Qed.
Print Assumptions c85_cut_ais_partial.

(** A sentence cut in the speed still gives the position (and a wrong speed), a position report cut after 20 characters the position. *)
Example c85_cut_example : exists r r' d d',
  fst (parse_sentence true ex_now (sent (lit "$GPRMC,225446,A,4916.45,N,12311.12,W,02" ++ lit "2.4,054.7,191194,020.3,E")) new_parser) = Ok (PsRmc r) /\
  fst (parse_sentence true ex_now (lit "$GPRMC,225446,A,4916.45,N,12311.12,W,02") new_parser) = Ok (PsRmc r') /\
  rmc_latitude r = rmc_latitude r' /\ rmc_sog_knots r <> rmc_sog_knots r' /\
  fst (parse_sentence true ex_now (sent (lit "!AIVDM,1,1,,A,15RTgt0PAso;90TKcjM8" ++ lit "h6g208CQ,0")) new_parser) = Ok (PsVesselDynamicData d) /\
  fst (parse_sentence true ex_now (lit "!AIVDM,1,1,,A,15RTgt0PAso;90TKcjM8") new_parser) = Ok (PsVesselDynamicData d') /\
  vdd_latitude d = vdd_latitude d' /\ vdd_cog d <> vdd_cog d'.
Proof.
  assert (R : exists r r' d d',
    fst (parse_sentence true ex_now (sent (lit "$GPRMC,225446,A,4916.45,N,12311.12,W,02" ++ lit "2.4,054.7,191194,020.3,E")) new_parser) = Ok (PsRmc r) /\
    fst (parse_sentence true ex_now (lit "$GPRMC,225446,A,4916.45,N,12311.12,W,02") new_parser) = Ok (PsRmc r') /\
    rmc_sog_knots r <> rmc_sog_knots r' /\
    fst (parse_sentence true ex_now (sent (lit "!AIVDM,1,1,,A,15RTgt0PAso;90TKcjM8" ++ lit "h6g208CQ,0")) new_parser) = Ok (PsVesselDynamicData d) /\
    fst (parse_sentence true ex_now (lit "!AIVDM,1,1,,A,15RTgt0PAso;90TKcjM8") new_parser) = Ok (PsVesselDynamicData d') /\
    vdd_cog d <> vdd_cog d').
  { do 4 eexists. split; [vm_compute; reflexivity|]. split; [vm_compute; reflexivity|]. split; [discriminate|].
    split; [vm_compute; reflexivity|]. split; [vm_compute; reflexivity|discriminate]. }
  destruct R as (r & r' & d & d' & H1 & H2 & N1 & H3 & H4 & N2). exists r, r', d, d'.
  split; [exact H1|]. split; [exact H2|]. split.
  - assert (G : gnss_with (sent (lit "$GPRMC,225446,A,4916.45,N,12311.12,W,02" ++ lit "2.4,054.7,191194,020.3,E")) (lit "GP") (lit "RMC")
      [lit "225446"; lit "A"; lit "4916.45"; lit "N"; lit "12311.12"; lit "W"; lit "022.4"; lit "054.7"; lit "191194"; lit "020.3"; lit "E"])
      by gnss.
    assert (K : In (lit "RMC") [lit "GGA"; lit "RMC"; lit "GSA"; lit "GLL"; lit "VTG"]) by (right; left; reflexivity).
    assert (N : ~ In 42 (lit "$GPRMC,225446,A,4916.45,N,12311.12,W,02")) by (vm_compute; intuition discriminate).
    assert (C : clock ex_now) by (vm_compute; intuition discriminate).
    assert (Y : (0 <= dt_year ex_now)%Z) by discriminate.
    destruct (c85_cut_gnss_partial _ _ _ _ _ _ _ _ _ _ _ _ G K N C Y H1 H2) as [_ A].
    apply (A [2; 3]%nat); [do 2 right; now left|]. intros i [<-|[<-|[]]]; vm_compute; lia.
  - split; [exact N1|]. split; [exact H3|]. split; [exact H4|]. split; [|exact N2].
    destruct (c85_cut_ais_partial true true ex_now (lit "!AIVDM,1,1,,A,15RTgt0PAso;90TKcjM8") (lit "h6g208CQ,0") (lit "AI") (lit "VDM") (lit "AI") (lit "VDM")
      (lit "15RTgt0PAso;90TKcjM8h6g208CQ") (lit "15RTgt0PAso;90TKcjM8") new_parser new_parser _ _ 1
      ltac:(apply (check_one_fragment _ _ _ (lit "A") _ [lit "0"]); apply check_vdm; [vm_compute; auto|reflexivity])
      ltac:(vm_compute; intuition discriminate)
      ltac:(apply (check_one_fragment _ _ _ (lit "A") _ []); apply check_vdm; [vm_compute; auto|reflexivity])
      ltac:(discriminate) H3 ltac:(discriminate) H4 ltac:(discriminate) eq_refl ltac:(discriminate)) as (_ & _ & A).
    apply (A [(89, 27)%nat]); [do 6 right; now left|]. intros i n [[= <- <-]|[]]. cbn. lia.
Qed.
