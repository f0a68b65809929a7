(** C48, C49, C50: satellites in view, sent in groups of sentences. *)
From stdpp Require Import gmap.
From Coq Require Import List NArith ZArith Bool String Lia Permutation.
From Verif Require Import Base Str F64 Chrono Types Util AisMod Vdm Gnss Parser
  SpecText SpecResult SpecAis SpecTime SpecState SpecGnss StrFacts FrontFacts CallFacts ResultFacts
  BitFacts VdmFacts LayoutFacts StateFacts RunFacts PropFront PropAis PropState.
Import ListNotations.
Open Scope N_scope.

(** ** Facts *)

Lemma optional_number_unique max f a b : optional_number max f a -> optional_number max f b -> a = b.
Proof.
  intros [v Hv Hm|Hn] [w Hw Hm'|Hn']; [|apply Hn' in Hv; lia|apply Hn in Hw; lia|reflexivity].
  f_equal. eapply denotes_unique; eassumption.
Qed.

Lemma satellite_unique nav a b c d l l' : satellite nav a b c d l -> satellite nav a b c d l' -> l = l'.
Proof.
  intros [prn e z s Hp Hm He Hz Hs|Hn] [prn' e' z' s' Hp' Hm' He' Hz' Hs'|Hn'].
  - rewrite (denotes_unique _ _ _ Hp Hp'), (optional_number_unique _ _ _ _ He He'),
      (optional_number_unique _ _ _ _ Hz Hz'), (optional_number_unique _ _ _ _ Hs Hs'). reflexivity.
  - apply Hn' in Hp. lia.
  - apply Hn in Hp'. lia.
  - reflexivity.
Qed.

Lemma satellites_unique nav fields l l' : satellites nav fields l -> satellites nav fields l' -> l = l'.
Proof.
  intros (a & b & c & d & -> & Ha & Hb & Hc & Hd) (a' & b' & c' & d' & -> & Ha' & Hb' & Hc' & Hd').
  now rewrite (satellite_unique _ _ _ _ _ _ _ Ha Ha'), (satellite_unique _ _ _ _ _ _ _ Hb Hb'),
    (satellite_unique _ _ _ _ _ _ _ Hc Hc'), (satellite_unique _ _ _ _ _ _ _ Hd Hd').
Qed.

Lemma satellites_bound nav fields l : satellites nav fields l -> (List.length l <= 4)%nat.
Proof.
  intros (a & b & c & d & -> & Ha & Hb & Hc & Hd). rewrite !app_length.
  destruct Ha, Hb, Hc, Hd; cbn; lia.
Qed.

Lemma number_lenient_optional max fields i :
  optional_number max (nth i fields []) (number_lenient (parse_uint max) fields i).
Proof.
  unfold number_lenient, pick_number_field, field. unfold str in *. destruct (nth i fields []) as [|x f].
  - apply number_absent. intros v (ds & [<- | H] & [Hd _] & _); [now destruct Hd|discriminate].
  - cbn [str_eqb negb]. destruct (parse_uint max (x :: f)) as [v|] eqn:V.
    + apply parse_uint_spec in V as [V1 V2]. now apply number_present.
    + apply number_absent. intros v Hv. destruct (N.lt_ge_cases max v) as [H|H]; [exact H|].
      rewrite (proj2 (parse_uint_spec max (x :: f) v)) in V by auto. discriminate.
Qed.

Lemma gsv_blocks_satellites nav body t fields :
  split_on 44 body = t :: fields -> satellites nav fields (gsv_blocks nav body).
Proof.
  intros Hs. unfold gsv_blocks. rewrite Hs. cbn [seq flat_map].
  assert (B : forall i, satellite nav (nth i fields []) (nth (S i) fields []) (nth (S (S i)) fields [])
     (nth (S (S (S i))) fields [])
     (match number_lenient parse_u8 (t :: fields) (S i) with
      | Some prn => [{| gsv_source := nav; gsv_prn_number := prn;
                        gsv_elevation := number_lenient parse_u8 (t :: fields) (S (S i));
                        gsv_azimuth := number_lenient parse_u16 (t :: fields) (S (S (S i)));
                        gsv_snr := number_lenient parse_u8 (t :: fields) (S (S (S (S i)))) |}]
      | None => [] end)).
  { intros i. pose proof (number_lenient_optional u8_max (t :: fields) (S i)) as H.
    cbn [nth] in H. unfold parse_u8 at 1. destruct H as [v Hv Hm|Hn]; [|now apply satellite_absent].
    apply satellite_present; [exact Hv|exact Hm| | |].
    - exact (number_lenient_optional u8_max (t :: fields) (S (S i))).
    - exact (number_lenient_optional u16_max (t :: fields) (S (S (S i)))).
    - exact (number_lenient_optional u8_max (t :: fields) (S (S (S (S i))))). }
  do 4 eexists. split; [|split; [exact (B 3%nat)|split; [exact (B 7%nat)|split; [exact (B 11%nat)|exact (B 15%nat)]]]].
  cbn [Nat.mul Nat.add]. rewrite app_nil_r. reflexivity.
Qed.

Lemma gsv_message_step ovf now s p tt c n fields :
  gsv_message s tt c n fields ->
  parse_sentence ovf now s p = gsv_step ovf tt c n (join ((lit "$" ++ tt ++ lit "GSV") :: fields)) p.
Proof.
  intros (Hs & Hc & Hn).
  destruct (gsv_part_step ovf now s p tt c n) as (body & given & Hb & ->); [now exists fields|].
  destruct Hs as ((body' & given' & Hb' & _ & _ & _ & Hf) & _ & _).
  destruct (has_body_unique _ _ _ _ _ Hb Hb') as [-> _]. now rewrite Hf.
Qed.

Lemma gsv_message_blocks s tt c n fields nav :
  gsv_message s tt c n fields ->
  satellites nav fields (gsv_blocks nav (join ((lit "$" ++ tt ++ lit "GSV") :: fields))).
Proof.
  intros (Hs & _). apply gsv_blocks_satellites with (lit "$" ++ tt ++ lit "GSV").
  destruct Hs as ((body & given & _ & _ & Hf) & _ & _). destruct Hf as (H1 & H2 & ->).
  now apply split_on_join.
Qed.

Lemma numbers_to_in c n : In n (numbers_to c) <-> 1 <= n <= c.
Proof.
  unfold numbers_to. rewrite in_map_iff. setoid_rewrite in_seq. split.
  - intros (k & <- & H). lia.
  - intros H. exists (N.to_nat n). split; lia.
Qed.

Lemma numbers_to_nodup c : List.NoDup (numbers_to c).
Proof.
  unfold numbers_to. apply FinFun.Injective_map_NoDup; [intros a b H; lia|apply seq_NoDup].
Qed.

Lemma numbers_to_length c : List.length (numbers_to c) = N.to_nat c.
Proof. unfold numbers_to. now rewrite map_length, seq_length. Qed.

(** What collecting a group returns and leaves. *)
Lemma gsv_collect_reads nav tt c range p :
  plain tt -> List.NoDup range ->
  fst (gsv_collect nav (lit "$" ++ tt ++ lit "GSV") c range p)
  = flat_map (fun i => match kept p (gsv_key tt c i) with Some b => gsv_blocks nav b | None => [] end) range.
Proof.
  intros Ht. revert p. induction range as [|i range IH]; intros p Hd; [reflexivity|].
  cbn [gsv_collect flat_map]. unfold pull_string. rewrite gsv_key_model.
  inversion Hd as [|? ? Hi Hd']; subst.
  match goal with |- context [gsv_collect ?a ?b ?c ?d ?e] => specialize (IH e Hd'); destruct (gsv_collect a b c d e) as [v p2] end.
  cbn [fst] in *. rewrite IH. unfold kept. f_equal. rewrite !flat_map_concat_map. f_equal. apply map_ext_in. intros j Hj.
  cbn [saved_fragments]. rewrite lookup_delete_ne; [reflexivity|].
  intros E. apply gsv_key_inj in E as (_ & _ & <-); [now apply Hi|exact Ht|exact Ht].
Qed.

Lemma gsv_collect_deletes nav tt c range p i :
  In i range -> kept (snd (gsv_collect nav (lit "$" ++ tt ++ lit "GSV") c range p)) (gsv_key tt c i) = None.
Proof.
  revert p. induction range as [|j range IH]; intros p Hi; [destruct Hi|].
  cbn [gsv_collect]. unfold pull_string. rewrite gsv_key_model.
  destruct (in_dec N.eq_dec i range) as [H|H].
  - match goal with |- context [gsv_collect ?a ?b ?c ?d ?e] => specialize (IH e H); destruct (gsv_collect a b c d e) as [v p2] end.
    exact IH.
  - destruct Hi as [-> |Hi]; [|contradiction].
    match goal with |- context [gsv_collect ?a ?b ?c ?d ?e] => assert (P : kept e (gsv_key tt c i) = None) end.
    { unfold kept. cbn [saved_fragments]. apply lookup_delete. }
    destruct (in_dec N.eq_dec i range) as [Hr|Hr]; [contradiction|].
    clear IH. revert P.
    match goal with |- context [gsv_collect ?a ?b ?c ?d ?e] => generalize e end.
    intros q P. enough (G : kept (snd (gsv_collect nav (lit "$" ++ tt ++ lit "GSV") c range q)) (gsv_key tt c i) = None).
    { destruct (gsv_collect _ _ _ _ _). exact G. }
    clear H Hr. revert q P. induction range as [|k range IH]; intros q P; [exact P|].
    cbn [gsv_collect]. unfold pull_string. rewrite gsv_key_model.
    match goal with |- context [gsv_collect ?a ?b ?c ?d ?e] => specialize (IH e); destruct (gsv_collect a b c d e) as [v p2] end.
    apply IH. unfold kept in *. cbn [saved_fragments]. apply lookup_delete_None. now right.
Qed.

Lemma gsv_range_numbers ovf c : c < 2 ^ 32 - 1 -> gsv_range ovf c = Some (numbers_to c).
Proof. intros H. unfold gsv_range. rewrite (proj2 (N.ltb_lt c u32_max)); [reflexivity|exact H]. Qed.

Lemma nodup_app_l {A} (a b : list A) : List.NoDup (a ++ b) -> List.NoDup a.
Proof.
  induction a as [|x a IH]; intros H; [apply List.NoDup_nil|]. cbn [app] in H. inversion H as [|? ? Hi Hd]; subst.
  apply List.NoDup_cons; [|now apply IH]. intros Hx. apply Hi, in_or_app. now left.
Qed.

(** The next message of a group of which the messages [done] have arrived. *)
Lemma gsv_step_next ovf tt c n bodies p done todo :
  plain tt -> c < 2 ^ 32 - 1 -> Permutation (done ++ n :: todo) (numbers_to c) ->
  (forall i, In i done -> kept p (gsv_key tt c i) = Some (bodies i)) ->
  (forall i, In i todo -> kept p (gsv_key tt c i) = None) ->
  gsv_step ovf tt c n (bodies n) p =
    match todo with
    | [] => (Ok (PsGsv (flat_map (fun i => gsv_blocks (nav_of_talker tt) (bodies i)) (numbers_to c))),
             snd (gsv_collect (nav_of_talker tt) (lit "$" ++ tt ++ lit "GSV") c (numbers_to c)
                    (push_string (gsv_key tt c n) (bodies n) p)))
    | _ => (Ok PsIncomplete, push_string (gsv_key tt c n) (bodies n) p)
    end.
Proof.
  intros Ht Hc HP Hdone Htodo. unfold gsv_step. cbv zeta. rewrite gsv_range_numbers by exact Hc.
  pose proof (numbers_to_nodup c) as ND.
  assert (ND' : List.NoDup (done ++ n :: todo)) by (eapply Permutation_NoDup; [symmetry; exact HP|exact ND]).
  set (p1 := push_string _ _ _).
  assert (K : forall i, In i (n :: done) -> kept p1 (gsv_key tt c i) = Some (bodies i)).
  { intros i Hi. unfold p1. rewrite kept_push. destruct (decide _) as [E|E].
    - apply gsv_key_inj in E as (_ & _ & ->); [reflexivity|exact Ht|exact Ht].
    - destruct Hi as [-> |Hi]; [now destruct E|]. now apply Hdone. }
  assert (K' : forall i, In i todo -> kept p1 (gsv_key tt c i) = None).
  { intros i Hi. unfold p1. rewrite kept_push. destruct (decide _) as [E|E]; [|now apply Htodo].
    apply gsv_key_inj in E as (_ & _ & ->); [|exact Ht|exact Ht].
    apply NoDup_remove_2 in ND'. exfalso. apply ND', in_or_app. now right. }
  assert (F : gsv_found (lit "$" ++ tt ++ lit "GSV") c (numbers_to c) p1 = N.of_nat (List.length (n :: done))).
  { rewrite gsv_found_spec. f_equal. apply Permutation_length, NoDup_Permutation.
    - now apply List.NoDup_filter.
    - eapply Permutation_NoDup with (l := done ++ [n]); [|].
      + symmetry. apply Permutation_cons_append.
      + replace (done ++ n :: todo) with ((done ++ [n]) ++ todo) in ND' by now rewrite <- app_assoc.
        exact (nodup_app_l _ _ ND').
    - intros i. rewrite List.filter_In. split.
      + intros [Hi Hk]. assert (Hi' : In i (done ++ n :: todo)) by (eapply Permutation_in; [symmetry; exact HP|exact Hi]).
        apply in_app_or in Hi' as [Hi'|[Hi'|Hi']]; [now right|now left|].
        unfold kept in K'. rewrite (K' _ Hi') in Hk. discriminate.
      + intros Hi. split.
        * eapply Permutation_in; [exact HP|]. apply in_or_app. destruct Hi as [-> |Hi]; [right; now left|now left].
        * unfold kept in K. now rewrite (K _ Hi). }
  rewrite F. pose proof (Permutation_length HP) as L. rewrite numbers_to_length, app_length in L. cbn [List.length] in L |- *.
  destruct todo as [|m todo].
  - cbn [List.length] in L. rewrite (proj2 (N.eqb_eq _ _)) by lia.
    pose proof (gsv_collect_reads (nav_of_talker tt) tt c (numbers_to c) p1 Ht ND) as R.
    destruct (gsv_collect _ _ _ _ p1) as [v p2]. cbn [fst snd] in *. rewrite R. f_equal. f_equal. f_equal.
    rewrite !flat_map_concat_map. f_equal. apply map_ext_in. intros i Hi.
    rewrite K; [reflexivity|]. eapply Permutation_in; [|exact Hi]. rewrite <- HP.
    symmetry. apply Permutation_cons_append.
  - cbn [List.length] in L. rewrite (proj2 (N.eqb_neq _ _)) by lia. reflexivity.
Qed.

Definition outside (tt : str) (c : N) (e : entry) : Prop :=
  forall i, 1 <= i <= c -> e <> Text (gsv_key tt c i).

Lemma gsv_finish ovf tt c n bodies p done :
  plain tt -> c < 2 ^ 32 - 1 -> Permutation (done ++ [n]) (numbers_to c) ->
  (forall i, In i done -> kept p (gsv_key tt c i) = Some (bodies i)) ->
  fst (gsv_step ovf tt c n (bodies n) p)
    = Ok (PsGsv (flat_map (fun i => gsv_blocks (nav_of_talker tt) (bodies i)) (numbers_to c))) /\
  no_group (snd (gsv_step ovf tt c n (bodies n) p)) tt c /\
  agree (outside tt c) (snd (gsv_step ovf tt c n (bodies n) p)) p.
Proof.
  intros Ht Hc HP Hd. rewrite (gsv_step_next ovf tt c n bodies p done []) by (assumption || intros _ []).
  cbn [fst snd]. split; [reflexivity|]. split.
  - intros i Hi. apply stored_kept_none, gsv_collect_deletes. now apply numbers_to_in.
  - assert (Hn : 1 <= n <= c).
    { apply numbers_to_in. eapply Permutation_in; [exact HP|]. apply in_or_app. right. now left. }
    intros [k|m] He.
    + apply stored_text. rewrite gsv_collect_writes.
      * unfold push_string. cbn [saved_fragments]. apply lookup_insert_ne. intros E. apply (He n Hn). f_equal. symmetry. exact E.
      * intros i Hi E. apply (He i); [now apply numbers_to_in|f_equal; exact E].
    + apply stored_vessel. now rewrite gsv_collect_vsds.
Qed.

Lemma group_run ovf tt c fields bodies calls p done :
  plain tt -> c < 2 ^ 32 - 1 -> calls <> [] ->
  Permutation (done ++ map fst calls) (numbers_to c) ->
  Forall (fun x => gsv_message (snd (snd x)) tt c (fst x) (fields (fst x))) calls ->
  (forall i, In i (map fst calls) -> bodies i = join ((lit "$" ++ tt ++ lit "GSV") :: fields i)) ->
  (forall i, In i done -> kept p (gsv_key tt c i) = Some (bodies i)) ->
  (forall i, In i (map fst calls) -> kept p (gsv_key tt c i) = None) ->
  results ovf (map snd calls) p
    = List.repeat (Ok PsIncomplete) (List.length calls - 1) ++
      [Ok (PsGsv (flat_map (fun i => gsv_blocks (nav_of_talker tt) (bodies i)) (numbers_to c)))] /\
  no_group (after ovf (map snd calls) p) tt c /\
  agree (outside tt c) (after ovf (map snd calls) p) p.
Proof.
  intros Ht Hc Hne HP HF Hb. revert p done Hne HP. induction HF as [|[n [now s]] calls Hs HF IH]; intros p done Hne HP Hd Hn.
  { now destruct Hne. }
  cbn [map snd fst] in *. rewrite results_cons, after_cons, (gsv_message_step ovf now s p tt c n (fields n) Hs).
  rewrite <- (Hb n (or_introl eq_refl)).
  destruct calls as [|call calls].
  - cbn [map] in *. destruct (gsv_finish ovf tt c n bodies p done Ht Hc HP Hd) as (E & H1 & H2).
    rewrite E. split; [reflexivity|]. split; [exact H1|exact H2].
  - rewrite (gsv_step_next ovf tt c n bodies p done (map fst (call :: calls))); [|exact Ht|exact Hc|exact HP|exact Hd|].
    2:{ intros i Hi. apply Hn. now right. }
    cbn [map]. cbn [fst snd]. change (snd call :: map snd calls) with (map snd (call :: calls)).
    specialize (IH (fun i Hi => Hb i (or_intror Hi)) (push_string (gsv_key tt c n) (bodies n) p) (done ++ [n])).
    pose proof (Permutation_NoDup (Permutation_sym HP) (numbers_to_nodup c)) as ND.
    destruct IH as (E & H1 & H2).
    + discriminate.
    + now rewrite <- app_assoc.
    + intros i Hi. rewrite kept_push. destruct (decide _) as [E|E].
      * apply gsv_key_inj in E as (_ & _ & ->); [reflexivity|exact Ht|exact Ht].
      * apply in_app_or in Hi as [Hi|[-> |[]]]; [now apply Hd|now destruct E].
    + intros i Hi. rewrite kept_push. destruct (decide _) as [E|E]; [|apply Hn; now right].
      apply gsv_key_inj in E as (_ & _ & ->); [|exact Ht|exact Ht].
      apply NoDup_remove_2 in ND. exfalso. apply ND, in_or_app. now right.
    + rewrite E. split; [|split; [exact H1|]].
      * cbn [List.length]. replace (S (S (List.length calls)) - 1)%nat with (S (List.length calls)) by lia.
        replace (S (List.length calls) - 1)%nat with (List.length calls) by lia. reflexivity.
      * intros e He. rewrite (H2 e He), stored_push. rewrite decide_False; [reflexivity|].
        apply He. apply numbers_to_in. eapply Permutation_in; [exact HP|]. apply in_or_app. right. now left.
Qed.

Lemma group_talker tt c fields calls : gsv_group tt c fields calls -> c <> 0 ->
  plain tt /\ calls <> [] /\ List.length calls = N.to_nat c.
Proof.
  intros [HP HF] Hc. pose proof (Permutation_length HP) as L. rewrite map_length, numbers_to_length in L.
  destruct calls as [|x calls]; [cbn in L; lia|]. split; [|split; [discriminate|exact L]].
  apply Forall_inv in HF. eapply gsv_with_plain, HF.
Qed.

Lemma classic_outside tt c e : outside tt c e \/ exists i, 1 <= i <= c /\ e = Text (gsv_key tt c i).
Proof.
  destruct e as [k|m]; [|left; intros i _; discriminate].
  destruct (in_dec (list_eq_dec N.eq_dec) k (map (gsv_key tt c) (numbers_to c))) as [H|H].
  - right. apply in_map_iff in H as (i & <- & Hi). exists i. split; [now apply numbers_to_in|reflexivity].
  - left. intros i Hi E. apply H. injection E as ->. apply in_map. now apply numbers_to_in.
Qed.

(** ** C48 *)

Theorem c48_group_any_order ovf p tt c nav fields sats calls :
  gsv_group tt c fields calls -> 1 <= c < 2 ^ 32 - 1 -> no_group p tt c ->
  names_system tt nav -> (forall n, 1 <= n <= c -> satellites nav (fields n) (sats n)) ->
  results ovf (map snd calls) p
    = List.repeat (Ok PsIncomplete) (N.to_nat c - 1) ++ [Ok (PsGsv (flat_map sats (numbers_to c)))] /\
  (List.length (flat_map sats (numbers_to c)) <= 4 * N.to_nat c)%nat /\
  after ovf (map snd calls) p = p.
Proof.
  intros HG Hc Hp Hv Hs. destruct (group_talker _ _ _ _ HG) as (Ht & Hne & HL); [lia|].
  destruct HG as [HP HF].
  pose (bodies := fun i => join ((lit "$" ++ tt ++ lit "GSV") :: fields i)).
  destruct (group_run ovf tt c fields bodies calls p [] Ht ltac:(lia) Hne HP HF) as (E & H1 & H2).
  - reflexivity.
  - intros i [].
  - intros i Hi. apply stored_kept_none, Hp, numbers_to_in. eapply Permutation_in; eassumption.
  - assert (ES : flat_map (fun i => gsv_blocks (nav_of_talker tt) (bodies i)) (numbers_to c) = flat_map sats (numbers_to c)).
    { rewrite !flat_map_concat_map. f_equal. apply map_ext_in. intros i Hi.
      rewrite (names_system_unique _ _ _ (names_system_nav tt) Hv).
      eapply satellites_unique; [|apply Hs; now apply numbers_to_in].
      assert (Hi' : In i (map fst calls)) by (eapply Permutation_in; [symmetry; exact HP|exact Hi]).
      apply in_map_iff in Hi' as ([n [now s]] & <- & Hx).
      eapply (gsv_message_blocks s). exact (proj1 (List.Forall_forall _ _) HF _ Hx). }
    rewrite E, ES, HL. split; [reflexivity|]. split.
    + rewrite <- (numbers_to_length c).
      assert (B : Forall (fun n => (List.length (sats n) <= 4)%nat) (numbers_to c)).
      { apply List.Forall_forall. intros n Hn. eapply satellites_bound, Hs. now apply numbers_to_in. }
      clear - B. induction B as [|n l Hn _ IH]; [cbn; lia|]. cbn [flat_map List.length]. rewrite app_length. lia.
    + apply stored_ext. intros e. destruct (classic_outside tt c e) as [He|(i & Hi & ->)].
      * now apply H2.
      * rewrite (H1 i Hi). symmetry. now apply Hp.
Qed.
Print Assumptions c48_group_any_order.

(** Messages of the group (stream 0) mixed with other sentences (stream 1): the group is reported as
    if it came alone, and so are the other sentences. *)
Definition own_entry (tt : str) (c : N) (e : entry) : Prop := exists k, e = Text (gsv_key tt c k).

Lemma own_entry_dec tt c e : own_entry tt c e \/ ~ own_entry tt c e.
Proof.
  destruct e as [k|m]; [|right; intros (i & E); discriminate].
  set (prefix := (lit "$" ++ tt ++ lit "GSV") ++ lit "," ++ dec c ++ lit ",").
  set (n := numeral_value (skipn (List.length prefix) k)).
  destruct (list_eq_dec N.eq_dec k (gsv_key tt c n)) as [E|E].
  - left. exists n. f_equal. exact E.
  - right. intros (i & Ei). apply E. apply Text_inj in Ei.
    assert (G : gsv_key tt c i = prefix ++ dec i).
    { unfold gsv_key, prefix. cbn [join]. now rewrite <- !app_assoc. }
    assert (Hn : n = i).
    { unfold n. rewrite Ei, G, skipn_app, skipn_all, Nat.sub_diag. apply dec_value. }
    rewrite Hn. exact Ei.
Qed.

Lemma no_part_touches ovf s p tt c e : plain tt ->
  (forall n, ~ gsv_part s tt c n) -> touches ovf s p e -> ~ own_entry tt c e.
Proof.
  intros Ht Hs T (i & E). destruct T as [tt' fff mid channel n payload k _ _|tt' c' n k Hp|].
  - apply Text_inj in E. now apply fragment_key_gsv_key in E.
  - apply Text_inj in E. pose proof Hp as (f & Hf & _). apply gsv_with_plain in Hf.
    apply gsv_key_inj in E as (-> & -> & _); [|exact Hf|exact Ht]. now apply (Hs n).
  - discriminate E.
Qed.

Lemma part_touches ovf s p tt c n e : plain tt -> gsv_part s tt c n -> touches ovf s p e -> own_entry tt c e.
Proof.
  intros Ht Hp T. destruct T as [tt' fff mid channel n' payload k Hf _|tt' c' n' k Hp'|tt' fff payload Hc _ _].
  - exfalso. eapply fragment_not_gsv; eassumption.
  - destruct (gsv_part_unique _ _ _ _ _ _ _ Hp Hp') as (<- & <- & _). now exists k.
  - exfalso. destruct Hp as (f & Hp & _). destruct Hc as [payload (c0 & n0 & i0 & h0 & k0 & (more & Hv) & _)|mid channel a b Hf _|mid channel a b Hf _].
    + eapply vdm_not_gsv; eassumption.
    + destruct Hf as (g & _ & _ & _ & Hf & _). eapply vdm_not_gsv; eassumption.
    + destruct Hf as (g & _ & _ & _ & Hf & _). eapply vdm_not_gsv; eassumption.
Qed.

Lemma touches_only_all ovf (K : entry -> Prop) (h : history) p :
  Forall (fun x => forall q e, touches ovf (snd x) q e -> K e) h -> touches_only ovf K h p.
Proof.
  intros H. revert p. induction H as [|[now s] h Hx _ IH]; intros p; [exact Logic.I|].
  split; [intros e; apply Hx|apply IH].
Qed.

Lemma stream_forall (P : datetime * str -> Prop) i m :
  (forall x, In x m -> fst x = i -> P (snd x)) -> Forall P (stream i m).
Proof.
  intros H. apply List.Forall_forall. intros x Hx. unfold stream in Hx. apply in_map_iff in Hx as (y & <- & Hy).
  apply List.filter_In in Hy as [H1 H2]. apply H; [exact H1|now apply N.eqb_eq].
Qed.

Theorem c48_group_interleaved ovf p tt c nav fields sats calls (m : interleaving) :
  gsv_group tt c fields calls -> 1 <= c < 2 ^ 32 - 1 -> no_group p tt c ->
  names_system tt nav -> (forall n, 1 <= n <= c -> satellites nav (fields n) (sats n)) ->
  stream 0 m = map snd calls ->
  Forall (fun x => fst x = 0 \/ (fst x = 1 /\ forall n, ~ gsv_part (snd (snd x)) tt c n)) m ->
  stream_results ovf 0 m p
    = List.repeat (Ok PsIncomplete) (N.to_nat c - 1) ++ [Ok (PsGsv (flat_map sats (numbers_to c)))] /\
  stream_results ovf 1 m p = results ovf (stream 1 m) p /\
  after ovf (map snd m) p = after ovf (stream 1 m) p.
Proof.
  intros HG Hc Hp Hv Hs Hm HF. destruct (group_talker _ _ _ _ HG) as (Ht & Hne & HL); [lia|].
  destruct (c48_group_any_order ovf p tt c nav fields sats calls HG Hc Hp Hv Hs) as (E1 & _ & E2).
  pose (K := fun i e => if i =? 0 then own_entry tt c e else if i =? 1 then ~ own_entry tt c e else False).
  assert (HO : Forall (fun x => forall q e, touches ovf (snd x) q e -> ~ own_entry tt c e) (stream 1 m)).
  { apply stream_forall. intros x Hx Hi q e. apply no_part_touches; [exact Ht|].
    destruct (proj1 (List.Forall_forall _ _) HF x Hx) as [H|[_ H]]; [congruence|exact H]. }
  destruct HG as [HP HGF].
  assert (HS : Forall (fun x => forall q e, touches ovf (snd x) q e -> own_entry tt c e) (stream 0 m)).
  { rewrite Hm. apply List.Forall_forall. intros x Hx q e. apply in_map_iff in Hx as (y & <- & Hy).
    destruct (proj1 (List.Forall_forall _ _) HGF y Hy) as (H1 & H2).
    apply (part_touches ovf _ q tt c (fst y)); [exact Ht|]. exists (fields (fst y)). auto. }
  assert (HE : forall i, stream i m = [] \/ i = 0 \/ i = 1).
  { intros i. destruct (N.eq_dec i 0) as [H0|H0]; [auto|]. destruct (N.eq_dec i 1) as [H1|H1]; [auto|]. left.
    unfold stream. replace (List.filter _ m) with (@nil (N * (datetime * str))); [reflexivity|].
    clear - HF H0 H1. induction HF as [|x m Hx _ IH]; [reflexivity|]. cbn [List.filter].
    rewrite (proj2 (N.eqb_neq _ _)); [exact IH|]. destruct Hx as [-> |[-> _]]; congruence. }
  pose proof (c14_streams_independent ovf K m p) as C.
  assert (D : forall i j e, i <> j -> K i e -> K j e -> False).
  { intros i j e Hij. unfold K. destruct (N.eqb_spec i 0), (N.eqb_spec j 0), (N.eqb_spec i 1), (N.eqb_spec j 1); subst; try tauto; lia. }
  specialize (C D).
  assert (T : forall i, touches_only ovf (K i) (stream i m) p).
  { intros i. destruct (HE i) as [-> |[-> | ->]]; [exact Logic.I| |]; now apply touches_only_all. }
  specialize (C T). destruct (C 0) as [C0 A0], (C 1) as [C1 A1].
  split; [now rewrite C0, Hm|]. split; [exact C1|].
  apply stored_ext. intros e. destruct (own_entry_dec tt c e) as [H|H].
  - rewrite (A0 e H), Hm, E2. symmetry. apply run_writes.
    eapply List.Forall_impl; [|exact HO]. intros x Hx q Ht'. exact (Hx q e Ht' H).
  - exact (A1 e H).
Qed.
Print Assumptions c48_group_interleaved.

Lemma denotes_count f v : denotes f v -> v < 2 ^ 32 -> count_field f v.
Proof. intros H1 H2. right. auto. Qed.

Lemma check_gsv_message s tt c n fields :
  (let '(body, given) := split_checksum s in
   (str_eqb given [] || str_eqb given (nmea_checksum body)) = true /\
   split_on 44 body = (lit "$" ++ tt ++ lit "GSV") :: fields) ->
  fields <> [] -> utf8_bytes tt = 2%nat ->
  parse_uint u32_max (nth 0 fields []) = Some c -> parse_uint u32_max (nth 1 fields []) = Some n ->
  gsv_message s tt c n fields.
Proof.
  intros H Hne Ht Hc Hn. apply parse_uint_spec in Hc as [Hc Hc'], Hn as [Hn Hn']. unfold u32_max in *.
  split; [|split; apply denotes_count; (assumption || lia)].
  split; [now apply check_sentence|]. auto.
Qed.

(** The group of the crate's tests, arriving in the order 3, 1, 2, with half of an AIS message in
    between. *)
Definition ex_gsv2 : str := lit "$GPGSV,3,2,11,14,25,170,00,16,57,208,39,18,67,296,40,19,40,246,00*74".
Definition ex_gsv3 : str := lit "$GPGSV,3,3,11,22,42,067,42,24,14,311,43,27,05,244,00,,,,*4D".
Definition ex_gsv_fields (n : N) : list str :=
  tl (split_on 44 (fst (split_checksum (if n =? 1 then ex_gsv1 else if n =? 2 then ex_gsv2 else ex_gsv3)))).
Definition ex_gsv_calls : list (N * (datetime * str)) :=
  [(3, (ex_now, ex_gsv3)); (1, (ex_now, ex_gsv1)); (2, (ex_now, ex_gsv2))].
Definition gps (prn elev azim snr : N) : GsvData :=
  {| gsv_source := NavGps; gsv_prn_number := prn; gsv_elevation := Some elev; gsv_azimuth := Some azim;
     gsv_snr := Some snr |}.
Definition ex_gsv_sats (n : N) : list GsvData :=
  if n =? 1 then [gps 3 3 111 0; gps 4 15 270 0; gps 6 1 10 0; gps 13 6 292 0]
  else if n =? 2 then [gps 14 25 170 0; gps 16 57 208 39; gps 18 67 296 40; gps 19 40 246 0]
  else [gps 22 42 67 42; gps 24 14 311 43; gps 27 5 244 0].

Lemma ex_gsv_group : gsv_group (lit "GP") 3 ex_gsv_fields ex_gsv_calls.
Proof.
  split.
  - change (map fst ex_gsv_calls) with [3; 1; 2]. change (numbers_to 3) with [1; 2; 3].
    rewrite perm_swap. apply perm_skip, perm_swap.
  - unfold ex_gsv_calls. repeat (apply List.Forall_cons; [cbn [fst snd]|]); [| | |apply List.Forall_nil].
    all: apply check_gsv_message; try (vm_compute; (reflexivity || discriminate || (split; reflexivity))).
Qed.

Lemma ex_gsv_satellites n : 1 <= n <= 3 -> satellites NavGps (ex_gsv_fields n) (ex_gsv_sats n).
Proof.
  intros H. assert (E : n = 1 \/ n = 2 \/ n = 3) by lia. clear H.
  destruct E as [-> |[-> | ->]].
  - change (ex_gsv_sats 1) with (gsv_blocks NavGps (fst (split_checksum ex_gsv1))). eapply gsv_blocks_satellites. vm_compute. reflexivity.
  - change (ex_gsv_sats 2) with (gsv_blocks NavGps (fst (split_checksum ex_gsv2))). eapply gsv_blocks_satellites. vm_compute. reflexivity.
  - change (ex_gsv_sats 3) with (gsv_blocks NavGps (fst (split_checksum ex_gsv3))). eapply gsv_blocks_satellites. vm_compute. reflexivity.
Qed.

Example c48_example :
  let m := [(0, (ex_now, ex_gsv3)); (0, (ex_now, ex_gsv1)); (1, (ex_now, ex_first)); (0, (ex_now, ex_gsv2))] in
  gsv_group (lit "GP") 3 ex_gsv_fields ex_gsv_calls /\ no_group new_parser (lit "GP") 3 /\
  names_system (lit "GP") NavGps /\
  (forall n, 1 <= n <= 3 -> satellites NavGps (ex_gsv_fields n) (ex_gsv_sats n)) /\
  stream 0 m = map snd ex_gsv_calls /\
  Forall (fun x => fst x = 0 \/ (fst x = 1 /\ forall n, ~ gsv_part (snd (snd x)) (lit "GP") 3 n)) m /\
  List.length (flat_map ex_gsv_sats (numbers_to 3)) = 11%nat /\
  stream_results true 0 m new_parser
    = [Ok PsIncomplete; Ok PsIncomplete; Ok (PsGsv (flat_map ex_gsv_sats [1; 2; 3]))] /\
  strings_count (after true (map snd m) new_parser) = 1%nat.
Proof.
  cbv zeta. split; [exact ex_gsv_group|]. split; [intros n _; reflexivity|].
  split; [left; right; left; reflexivity|]. split; [exact ex_gsv_satellites|]. split; [reflexivity|].
  split; [|split; [reflexivity|split; vm_compute; reflexivity]].
  repeat (apply List.Forall_cons; [cbn [fst snd]|]); [now left|now left| |now left|apply List.Forall_nil].
  right. split; [reflexivity|]. intros n H. eapply fragment_not_gsv; [exact ex_first_fragment|exact H].
Qed.

(** ** C49 *)

(** Every block of a message that is a group of its own is reported as specified by [satellites],
    whatever is written in it. *)
Theorem c49_blocks ovf now p s tt nav fields :
  gsv_message s tt 1 1 fields -> names_system tt nav ->
  exists l, fst (parse_sentence ovf now s p) = Ok (PsGsv l) /\ satellites nav fields l.
Proof.
  intros Hs Hv. exists (gsv_blocks nav (join ((lit "$" ++ tt ++ lit "GSV") :: fields))).
  split; [|now apply (gsv_message_blocks s tt 1 1)].
  rewrite (gsv_message_step ovf now s p tt 1 1 fields Hs).
  assert (Ht : plain tt) by (eapply gsv_with_plain; apply Hs).
  destruct (gsv_finish ovf tt 1 1 (fun _ => join ((lit "$" ++ tt ++ lit "GSV") :: fields)) p [] Ht ltac:(lia)) as (E & _).
  - change (numbers_to 1) with [1]. apply Permutation_refl.
  - intros i [].
  - rewrite E. change (numbers_to 1) with [1]. cbn [flat_map]. rewrite app_nil_r.
    now rewrite (names_system_unique _ _ _ (names_system_nav tt) Hv).
Qed.
Print Assumptions c49_blocks.

(** No content of the blocks makes a GSV sentence fail: the result is Incomplete or a list of
    satellites, as soon as count and number are readable. *)
Theorem c49_never_fatal ovf now p s tt c n fields :
  gsv_message s tt c n fields -> c < 2 ^ 32 - 1 ->
  fst (parse_sentence ovf now s p) = Ok PsIncomplete \/
  exists l, fst (parse_sentence ovf now s p) = Ok (PsGsv l).
Proof.
  intros Hs Hc. rewrite (gsv_message_step ovf now s p tt c n fields Hs). unfold gsv_step. cbv zeta.
  rewrite gsv_range_numbers by exact Hc. destruct (_ =? c); [|now left].
  destruct (gsv_collect _ _ _ _ _) as [v p2]. right. now exists v.
Qed.
Print Assumptions c49_never_fatal.

(** A message with a satellite without elevation, one with a malformed azimuth, one with an
    unreadable number and one with a number too large. *)
Definition ex_blocks : str := lit "$GLGSV,1,1,04,65,,010,31,66,12,x,400,SV,1,2,3,256,1,2,3".
Example c49_example :
  gsv_message ex_blocks (lit "GL") 1 1 (tl (split_on 44 ex_blocks)) /\
  fst (parse_sentence true ex_now ex_blocks new_parser)
  = Ok (PsGsv [{| gsv_source := NavGlonass; gsv_prn_number := 65; gsv_elevation := None;
                  gsv_azimuth := Some 10; gsv_snr := Some 31 |};
               {| gsv_source := NavGlonass; gsv_prn_number := 66; gsv_elevation := Some 12;
                  gsv_azimuth := None; gsv_snr := None |}]).
Proof.
  split; [|vm_compute; reflexivity].
  apply check_gsv_message; try (vm_compute; (reflexivity || discriminate || (split; reflexivity))).
Qed.

(** ** C50 *)

(** A message whose number is outside its group is kept for ever, whatever follows. *)
Lemma stray_survives ovf now s p tt c n :
  plain tt -> ~ (1 <= n <= c /\ c < 2 ^ 32 - 1) ->
  stored p (Text (gsv_key tt c n)) <> None ->
  stored (snd (parse_sentence ovf now s p)) (Text (gsv_key tt c n)) <> None.
Proof.
  intros Ht Hn Hp. destruct (sentence_kind ovf now s) as (f & K & Hf).
  destruct K as [r|tt' fff payload Hs|tt' fff mid channel a Hs|tt' fff mid channel b Hs|tt' c' n' body given Hs Hb].
  - now rewrite Hf.
  - rewrite call_writes; [exact Hp|]. intros T. refine (no_part_touches ovf s p tt c _ Ht _ T (ex_intro _ n eq_refl)).
    intros k (g & Hx & _). destruct Hs as (c0 & n0 & i0 & h0 & k0 & (more & Hv) & _). eapply vdm_not_gsv; eassumption.
  - rewrite call_writes; [exact Hp|]. intros T. refine (no_part_touches ovf s p tt c _ Ht _ T (ex_intro _ n eq_refl)).
    intros k Hx. eapply fragment_not_gsv; eassumption.
  - rewrite call_writes; [exact Hp|]. intros T. refine (no_part_touches ovf s p tt c _ Ht _ T (ex_intro _ n eq_refl)).
    intros k Hx. eapply fragment_not_gsv; eassumption.
  - rewrite Hf. clear Hf. unfold gsv_step. cbv zeta.
    assert (P : stored (push_string (gsv_key tt' c' n') body p) (Text (gsv_key tt c n)) <> None).
    { rewrite stored_push. destruct (decide _); [discriminate|exact Hp]. }
    destruct (gsv_range ovf c') as [range|] eqn:R; [|exact P]. destruct (_ =? c'); [|exact P].
    set (q := push_string (gsv_key tt' c' n') body p) in *.
    assert (W : saved_fragments (snd (gsv_collect (nav_of_talker tt') (lit "$" ++ tt' ++ lit "GSV") c' range q)) !! gsv_key tt c n
                = saved_fragments q !! gsv_key tt c n).
    { apply gsv_collect_writes. intros i Hi E. destruct Hs as (g & Hg & _). apply gsv_with_plain in Hg.
      apply gsv_key_inj in E as (-> & -> & ->); [|exact Ht|exact Hg]. apply Hn. unfold gsv_range in R.
      destruct (N.ltb_spec c' u32_max) as [L|L].
      - injection R as <-. apply numbers_to_in in Hi. split; [exact Hi|exact L].
      - destruct ovf; [discriminate|]. injection R as <-. destruct Hi. }
    apply stored_text in W. destruct (gsv_collect _ _ _ _ q) as [v p2]. cbn [snd] in *. rewrite W. exact P.
Qed.

Theorem c50_stray_kept_forever_refuted ovf now p s tt c n :
  gsv_part s tt c n -> n = 0 \/ c < n \/ c = 2 ^ 32 - 1 ->
  forall h, stored (after ovf h (snd (parse_sentence ovf now s p))) (Text (gsv_key tt c n)) <> None.
Proof.
  intros Hs Hn h. assert (Ht : plain tt) by (destruct Hs as (g & Hg & _); now apply gsv_with_plain in Hg).
  assert (Hn' : ~ (1 <= n <= c /\ c < 2 ^ 32 - 1)) by lia.
  apply (run_invariant ovf (fun q => stored q (Text (gsv_key tt c n)) <> None)).
  - intros now' s' q Hq. now apply stray_survives.
  - destruct (gsv_part_step ovf now s p tt c n Hs) as (body & given & _ & ->).
    unfold gsv_step. cbv zeta. set (q := push_string (gsv_key tt c n) body p).
    assert (P : stored q (Text (gsv_key tt c n)) <> None).
    { unfold q. rewrite stored_push, decide_True by reflexivity. discriminate. }
    destruct (gsv_range ovf c) as [range|] eqn:R; [|exact P]. destruct (_ =? c); [|exact P].
    assert (W : saved_fragments (snd (gsv_collect (nav_of_talker tt) (lit "$" ++ tt ++ lit "GSV") c range q)) !! gsv_key tt c n
                = saved_fragments q !! gsv_key tt c n).
    { apply gsv_collect_writes. intros i Hi E. 
      apply gsv_key_inj in E as (_ & _ & ->); [|exact Ht|exact Ht]. apply Hn'. unfold gsv_range in R.
      destruct (N.ltb_spec c u32_max) as [L|L].
      - injection R as <-. apply numbers_to_in in Hi. split; [exact Hi|exact L].
      - destruct ovf; [discriminate|]. injection R as <-. destruct Hi. }
    apply stored_text in W. destruct (gsv_collect _ _ _ _ q) as [v p2]. cbn [snd] in *. rewrite W. exact P.
Qed.
Print Assumptions c50_stray_kept_forever_refuted.

(** Message 4 of 3; message 0; a group of no messages. *)
Definition ex_stray4 : str := lit "$GPGSV,3,4,11,22,42,067,42".
Example c50_refuted_example :
  gsv_part ex_stray4 (lit "GP") 3 4 /\
  fst (parse_sentence true ex_now ex_stray4 new_parser) = Ok PsIncomplete /\
  strings_count (after true ([(ex_now, ex_stray4)] ++ map snd ex_gsv_calls) new_parser) = 1%nat /\
  gsv_part (lit "$GPGSV,0,0,,,,,") (lit "GP") 0 0 /\
  fst (parse_sentence true ex_now (lit "$GPGSV,0,0,,,,,") new_parser) = Ok (PsGsv []) /\
  strings_count (snd (parse_sentence true ex_now (lit "$GPGSV,0,0,,,,,") new_parser)) = 1%nat.
Proof.
  split; [|split; [|split; [|split; [|split]]]]; try (vm_compute; reflexivity).
  - exists (tl (split_on 44 ex_stray4)).
    apply check_gsv_message; try (vm_compute; (reflexivity || discriminate || (split; reflexivity))).
  - exists (tl (split_on 44 (lit "$GPGSV,0,0,,,,,"))).
    apply check_gsv_message; try (vm_compute; (reflexivity || discriminate || (split; reflexivity))).
Qed.

(** What does hold: a message with a number inside its group can always leave the memory again; some
    GSV sentences complete its group, whatever state the parser is in. *)
Definition gsv_text (tt : str) (c n : N) : str := join [lit "$" ++ tt ++ lit "GSV"; dec c; dec n] ++ lit "*".

Lemma gsv_text_message tt c n : plain tt -> utf8_bytes tt = 2%nat -> c < 2 ^ 32 -> n < 2 ^ 32 ->
  gsv_message (gsv_text tt c n) tt c n [dec c; dec n].
Proof.
  intros Hp Ht Hc Hn. split; [|split; apply denotes_count; (apply dec_denotes || assumption)].
  split; [|split; [discriminate|exact Ht]].
  exists (join [lit "$" ++ tt ++ lit "GSV"; dec c; dec n]), [].
  split; [right; split; [reflexivity|intros []]|]. split; [now left|]. split; [discriminate|].
  split; [|reflexivity].
  repeat (apply List.Forall_cons); [now apply gsv_type_plain|apply dec_plain|apply dec_plain|apply List.Forall_nil].
Qed.

Lemma filter_split_permutation {A} (f : A -> bool) l :
  Permutation (List.filter f l ++ List.filter (fun x => negb (f x)) l) l.
Proof.
  induction l as [|x l IH]; [apply Permutation_refl|]. cbn [List.filter]. destruct (f x); cbn [negb app].
  - now apply perm_skip.
  - rewrite <- Permutation_middle. now apply perm_skip.
Qed.

(** Whatever is kept of a group under numbers from 1 to its count can leave: some messages complete the group, and
    nothing else is changed. *)
Theorem c50_in_range_can_leave_partial ovf (now : datetime) p tt c :
  plain tt -> utf8_bytes tt = 2%nat -> 1 <= c < 2 ^ 32 - 1 ->
  exists h, Forall (fun x => exists k, gsv_part (snd x) tt c k) h /\
    no_group (after ovf h p) tt c /\
    agree (outside tt c) (after ovf h p) p.
Proof.
  intros Hp Ht [Hn Hc].
  pose (have := fun i => match kept p (gsv_key tt c i) with Some _ => true | None => false end).
  pose (done := List.filter have (numbers_to c)).
  pose (todo := List.filter (fun i => negb (have i)) (numbers_to c)).
  assert (HP : Permutation (done ++ todo) (numbers_to c)) by apply filter_split_permutation.
  pose (fields := fun i : N => [dec c; dec i]).
  pose (text := fun i => join ((lit "$" ++ tt ++ lit "GSV") :: fields i)).
  destruct todo as [|k todo'] eqn:ET.
  - (* everything is there already: repeat the first message *)
    rewrite app_nil_r in HP.
    pose (bodies := fun i => if i =? 1 then text 1 else match kept p (gsv_key tt c i) with Some b => b | None => [] end).
    assert (Hk : forall i, In i (numbers_to c) -> exists b, kept p (gsv_key tt c i) = Some b).
    { intros i Hi. apply (Permutation_in i (Permutation_sym HP)) in Hi. unfold done in Hi.
      apply List.filter_In in Hi as [_ Hi]. unfold have in Hi. destruct (kept p _) as [b|]; [now exists b|discriminate]. }
    exists [(now, gsv_text tt c 1)]. cbn [map].
    assert (M : gsv_message (gsv_text tt c 1) tt c 1 (fields 1)) by (apply gsv_text_message; (assumption || lia)).
    assert (EN : exists l, numbers_to c = 1 :: l).
    { unfold numbers_to. destruct (N.to_nat c) as [|m] eqn:E; [lia|]. cbn [seq map]. eexists. reflexivity. }
    destruct EN as (l & EN). pose proof (numbers_to_nodup c) as ND. rewrite EN in ND.
    inversion ND as [|? ? H1 ND']; subst.
    destruct (gsv_finish ovf tt c 1 bodies p l Hp Hc) as (_ & HA & HB).
    + rewrite EN. symmetry. apply Permutation_cons_append.
    + intros i Hi. unfold bodies. destruct (N.eqb_spec i 1) as [-> |_]; [contradiction|].
      destruct (Hk i) as (b & ->); [rewrite EN; now right|reflexivity].
    + split; [|rewrite after_cons; cbn [snd]; rewrite (gsv_message_step ovf now _ p tt c 1 (fields 1) M)].
      * apply List.Forall_cons; [|apply List.Forall_nil]. exists 1. now exists (fields 1).
      * split; [exact HA|exact HB].
  - pose (bodies := fun i => if have i then match kept p (gsv_key tt c i) with Some b => b | None => [] end else text i).
    pose (calls := map (fun i => (i, (now, gsv_text tt c i))) (k :: todo')).
    assert (EM : map fst calls = k :: todo').
    { unfold calls. rewrite map_map. cbn [fst]. apply map_id. }
    assert (HT : forall i, In i (k :: todo') -> 1 <= i <= c /\ have i = false).
    { intros i Hi. rewrite <- ET in Hi. unfold todo in Hi. apply List.filter_In in Hi as [H1 H2].
      split; [now apply numbers_to_in|]. now destruct (have i). }
    assert (HF : Forall (fun x => gsv_message (snd (snd x)) tt c (fst x) (fields (fst x))) calls).
    { apply List.Forall_forall. intros x Hx. unfold calls in Hx. apply in_map_iff in Hx as (i & <- & Hi).
      cbn [fst snd]. apply HT in Hi as [Hi _]. apply gsv_text_message; (assumption || lia). }
    destruct (group_run ovf tt c fields bodies calls p done Hp Hc) as (_ & HA & HB).
    + discriminate.
    + now rewrite EM.
    + exact HF.
    + intros i Hi. rewrite EM in Hi. unfold bodies. now rewrite (proj2 (HT i Hi)).
    + intros i Hi. unfold done in Hi. apply List.filter_In in Hi as [_ Hi]. unfold bodies. rewrite Hi.
      unfold have in Hi. now destruct (kept p _).
    + intros i Hi. rewrite EM in Hi. apply HT in Hi as [_ Hi]. unfold have in Hi. now destruct (kept p _).
    + exists (map snd calls). split; [|split; [exact HA|exact HB]].
      apply List.Forall_forall. intros x Hx. apply in_map_iff in Hx as (y & <- & Hy).
      exists (fst y). exists (fields (fst y)). exact (proj1 (List.Forall_forall _ _) HF y Hy).
Qed.
Print Assumptions c50_in_range_can_leave_partial.

(** Message 2 of 3 is waiting; messages 1 and 3 remove it. *)
Example c50_partial_example :
  let p := snd (parse_sentence true ex_now ex_gsv2 new_parser) in
  plain (lit "GP") /\ utf8_bytes (lit "GP") = 2%nat /\
  stored p (Text (gsv_key (lit "GP") 3 2)) <> None /\
  strings_count (after true [(ex_now, gsv_text (lit "GP") 3 1); (ex_now, gsv_text (lit "GP") 3 3)] p) = 0%nat.
Proof.
  split; [now apply plain_lit_dec|]. split; [reflexivity|]. split; [vm_compute; discriminate|vm_compute; reflexivity].
Qed.
