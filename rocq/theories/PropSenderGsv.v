(** C111: the satellites a receiver sees are read back. *)
From stdpp Require Import gmap.
From Coq Require Import List NArith ZArith Bool String Lia Permutation.
From Verif Require Import Base Str F64 Chrono Types Util AisMod Vdm Gnss Parser
  SpecText SpecResult SpecAis SpecTime SpecState SpecReal SpecFields SpecGnss SpecSender StrFacts FrontFacts CallFacts
  ResultFacts VdmFacts StateFacts RunFacts PropFront PropState PropGsv PropSender.
Import ListNotations.
Open Scope N_scope.

Lemma optional_read w max o : (1 <= w)%nat -> every (fun n => n < 10 ^ N.of_nat w /\ n <= max) o ->
  optional_number max (known (digits_of w) o) o.
Proof.
  intros Hw. destruct o as [n|]; cbn [every known].
  - intros [H M]. constructor; [now apply digits_of_denotes|exact M].
  - intros _. constructor. intros v (ds & [E|E] & [N _] & _); [now subst ds|discriminate E].
Qed.

Lemma block_read nav x : satellite_sendable x ->
  satellite nav (nth 0 (satellite_fields x) []) (nth 1 (satellite_fields x) []) (nth 2 (satellite_fields x) [])
    (nth 3 (satellite_fields x) []) [satellite_entry nav x].
Proof.
  intros (H & E & A & S). cbn [satellite_fields nth]. constructor.
  - now apply satellite_read.
  - exact H.
  - apply optional_read; [lia|]. destruct (ss_elevation x); cbn in *; lia.
  - apply optional_read; [lia|]. destruct (ss_azimuth x); cbn in *; lia.
  - apply optional_read; [lia|]. destruct (ss_snr x); cbn in *; lia.
Qed.

Lemma block_empty nav : satellite nav [] [] [] [] [].
Proof. apply satellite_absent. intros v (ds & [E|E] & [N _] & _); [now subst ds|discriminate E]. Qed.

Lemma page_read nav l n : Forall satellite_sendable l ->
  satellites nav (page_fields l n) (map (satellite_entry nav) (page l n)).
Proof.
  intros H. assert (HP : Forall satellite_sendable (page l n)).
  { unfold page. apply Forall_take. now apply Forall_drop. }
  assert (L : (List.length (page l n) <= 4)%nat) by (unfold page; rewrite firstn_length; lia).
  unfold page_fields. destruct (page l n) as [|a [|b [|c [|d [|]]]]]; cbn [List.length] in L; try lia;
    repeat match goal with H : Forall _ (_ :: _) |- _ => apply List.Forall_cons_iff in H as [? H] end;
    unfold satellites; cbn [flat_map satellite_fields app nth map].
  - exists [], [], [], []. auto using block_empty.
  - exists [satellite_entry nav a], [], [], []. split; [reflexivity|]. split; [now apply (block_read nav a)|]. auto using block_empty.
  - exists [satellite_entry nav a], [satellite_entry nav b], [], []. split; [reflexivity|]. split; [now apply (block_read nav a)|].
    split; [now apply (block_read nav b)|]. auto using block_empty.
  - exists [satellite_entry nav a], [satellite_entry nav b], [satellite_entry nav c], []. split; [reflexivity|]. split; [now apply (block_read nav a)|].
    split; [now apply (block_read nav b)|]. split; [now apply (block_read nav c)|]. apply block_empty.
  - exists [satellite_entry nav a], [satellite_entry nav b], [satellite_entry nav c], [satellite_entry nav d].
    split; [reflexivity|]. split; [now apply (block_read nav a)|].
    split; [now apply (block_read nav b)|]. split; [now apply (block_read nav c)|]. now apply (block_read nav d).
Qed.

Lemma pages_all (l : list sent_satellite) k j : (List.length l <= 4 * k)%nat ->
  flat_map (fun n => firstn 4 (skipn (4 * (N.to_nat n - S j)) l)) (map N.of_nat (seq (S j) k)) = l.
Proof.
  revert l j. induction k as [|k IH]; intros l j L.
  - destruct l; [reflexivity|cbn in L; lia].
  - cbn [seq map flat_map]. rewrite Nat2N.id, Nat.sub_diag. cbn [Nat.mul skipn].
    transitivity (firstn 4 l ++ skipn 4 l); [|apply firstn_skipn]. f_equal.
    etransitivity; [|apply (IH (skipn 4 l) (S j)); rewrite skipn_length; lia].
    rewrite !flat_map_concat_map. f_equal. apply map_ext_in. intros n Hn. apply in_map_iff in Hn as (i & <- & Hi). apply in_seq in Hi.
    rewrite Nat2N.id. rewrite drop_drop. f_equal. f_equal. lia.
Qed.

Lemma flat_map_map {A B C} (f : A -> list B) (g : B -> C) l : flat_map (fun x => map g (f x)) l = map g (flat_map f l).
Proof. induction l; cbn; [reflexivity|]. now rewrite map_app, IHl. Qed.

(** The satellites a receiver sees, written four to a sentence and arriving in any order, are all
    in the answer to the last one, in the order in which they were written. *)
Theorem c111_gsv ovf tt nav l calls p :
  utf8_bytes tt = 2%nat -> plain tt -> names_system tt nav -> (1 <= List.length l <= 36)%nat -> Forall satellite_sendable l ->
  no_group p tt (sentences_needed l) ->
  Permutation (map fst calls) (numbers_to (sentences_needed l)) ->
  Forall (fun x => snd (snd x) = written_sentence tt (lit "GSV") (page_fields l (fst x))) calls ->
  results ovf (map snd calls) p =
    List.repeat (Ok PsIncomplete) (N.to_nat (sentences_needed l) - 1) ++ [Ok (PsGsv (map (satellite_entry nav) l))] /\
  after ovf (map snd calls) p = p.
Proof.
  intros Ht Hp Hn L HS HG HP HF. set (c := sentences_needed l) in *.
  assert (Hc : 1 <= c <= 9).
  { unfold c, sentences_needed. split; [apply N.div_le_lower_bound; lia|]. apply N.lt_succ_r. apply N.div_lt_upper_bound; lia. }
  assert (H4 : (List.length l <= 4 * N.to_nat c)%nat).
  { unfold c, sentences_needed. pose proof (N.div_mod' (N.of_nat (List.length l) + 3) 4) as E.
    pose proof (N.mod_lt (N.of_nat (List.length l) + 3) 4 ltac:(lia)) as M.
    set (q := (N.of_nat (List.length l) + 3) / 4) in *. set (r := (N.of_nat (List.length l) + 3) mod 4) in *. clearbody q r. lia. }
  assert (G : gsv_group tt c (page_fields l) calls).
  { split; [exact HP|]. rewrite List.Forall_forall in HF |- *. intros x Hx. rewrite (HF x Hx).
    assert (Hi : 1 <= fst x <= c).
    { apply numbers_to_in. eapply Permutation_in; [exact HP|]. now apply in_map. }
    split; [|split].
    - apply (written_gnss tt (lit "GSV") (page_fields l (fst x))); [assumption|assumption|now apply plain_lit_dec|discriminate|].
      unfold page_fields. apply List.Forall_app. split; [repeat constructor; apply digits_of_plain|].
      apply List.Forall_forall. intros f Hf. apply in_flat_map in Hf as (y & _ & Hf).
      unfold satellite_fields in Hf. cbn [In] in Hf.
      destruct Hf as [<-|[<-|[<-|[<-|[]]]]]; plain_text.
    - right. cbn [page_fields app nth]. split; [apply digits_of_denotes; [lia|fold c; cbn; lia]|fold c; lia].
    - right. cbn [page_fields app nth]. split; [apply digits_of_denotes; [lia|cbn; lia]|lia]. }
  destruct (c48_group_any_order ovf p tt c nav (page_fields l) (fun n => map (satellite_entry nav) (page l n)) calls G)
    as (E & _ & Ea); [lia|exact HG|exact Hn|intros n _; now apply page_read|].
  split; [|exact Ea]. rewrite E. f_equal. f_equal. f_equal. rewrite flat_map_map. f_equal. f_equal.
  unfold numbers_to. exact (pages_all l (N.to_nat c) 0 H4).
Qed.
Print Assumptions c111_gsv.

Definition ex_seen : list sent_satellite :=
  [mk_sent_satellite 1 (Some 40) (Some 83) (Some 46); mk_sent_satellite 2 (Some 17) (Some 308) None;
   mk_sent_satellite 12 None None None; mk_sent_satellite 14 (Some 22) (Some 228) (Some 45);
   mk_sent_satellite 193 (Some 0) (Some 0) (Some 99)].

Example c111_gsv_example :
  Forall satellite_sendable ex_seen /\ sentences_needed ex_seen = 2 /\ no_group new_parser (lit "GP") 2 /\
  written_sentence (lit "GP") (lit "GSV") (page_fields ex_seen 1) =
    lit "$GPGSV,2,1,05,01,40,083,46,02,17,308,,12,,,,14,22,228,45*43" /\
  written_sentence (lit "GP") (lit "GSV") (page_fields ex_seen 2) = lit "$GPGSV,2,2,05,193,00,000,99*77".
Proof.
  split.
  { unfold ex_seen. repeat (apply List.Forall_cons; [unfold satellite_sendable; cbn; lia|]). apply List.Forall_nil. }
  split; [reflexivity|]. split; [intros n _; reflexivity|]. split; vm_compute; reflexivity.
Qed.
