(** C75: parts of different transmissions are combined. *)
From stdpp Require Import gmap.
From Coq Require Import List NArith ZArith Bool String Lia Permutation.
From Verif Require Import Base Str F64 Chrono Types Util AisMod Vdm Gnss Parser
  SpecText SpecResult SpecAis SpecTime SpecState SpecGnss SpecMix StrFacts FrontFacts CallFacts ResultFacts
  BitFacts VdmFacts LayoutFacts StateFacts RunFacts PropFront PropAis PropState PropStatic PropGsv PropHist.
Import ListNotations.
Open Scope N_scope.

Definition gsv_text (tt : str) (fields : list str) : str := join ((lit "$" ++ tt ++ lit "GSV") :: fields).

Lemma gsv_step_incomplete ovf tt c n body p m :
  plain tt -> c < 2 ^ 32 - 1 -> 1 <= m <= c -> m <> n -> kept p (gsv_key tt c m) = None ->
  gsv_step ovf tt c n body p = (Ok PsIncomplete, push_string (gsv_key tt c n) body p).
Proof.
  intros Ht Hc Hm Hne K. unfold gsv_step. cbv zeta. rewrite gsv_range_numbers by exact Hc.
  set (p1 := push_string _ _ _). rewrite gsv_found_spec.
  assert (K1 : saved_fragments p1 !! gsv_key tt c m = None).
  { change (kept p1 (gsv_key tt c m) = None). unfold p1. rewrite kept_push. destruct (decide _) as [E|E]; [|exact K].
    apply gsv_key_inj in E as (_ & _ & E); [now destruct Hne|exact Ht|exact Ht]. }
  assert (L : forall l : list N, In m l -> (List.length (List.filter (fun i => match saved_fragments p1 !! gsv_key tt c i with
     Some _ => true | None => false end) l) < List.length l)%nat).
  { induction l as [|x l IH]; intros I; [destruct I|]. cbn [List.filter].
    assert (G : forall (f : N -> bool) l, (List.length (List.filter f l) <= List.length l)%nat).
    { intros f. induction l0 as [|y l0 IHl]; [constructor|]. cbn [List.filter]. destruct (f y); cbn [List.length]; lia. }
    destruct I as [-> |I].
    - rewrite K1. cbn [List.length]. match goal with |- (List.length (List.filter ?f l) < _)%nat => specialize (G f l) end. lia.
    - specialize (IH I). destruct (saved_fragments p1 !! gsv_key tt c x); cbn [List.length]; lia. }
  specialize (L (numbers_to c) (proj2 (numbers_to_in c m) Hm)). rewrite numbers_to_length in L.
  rewrite (proj2 (N.eqb_neq _ _)) by lia. reflexivity.
Qed.

(** Messages that cannot complete the group, because message [m] is missing, wait. *)
Lemma gsv_wait ovf tt c fields m ns calls p :
  plain tt -> c < 2 ^ 32 - 1 -> 1 <= m <= c -> transmits tt c fields ns calls -> ~ In m ns ->
  kept p (gsv_key tt c m) = None ->
  results ovf calls p = List.repeat (Ok PsIncomplete) (List.length ns) /\
  (forall n, In n ns -> kept (after ovf calls p) (gsv_key tt c n) = Some (gsv_text tt (fields n))) /\
  (forall e, (forall n, In n ns -> e <> Text (gsv_key tt c n)) -> stored (after ovf calls p) e = stored p e).
Proof.
  intros Ht Hc Hm H. revert p. induction H as [|n [now s] ns calls M H IH]; intros p Hn K.
  - split; [reflexivity|]. split; [intros n []|reflexivity].
  - cbn [snd] in M. rewrite results_cons, after_cons.
    assert (E : parse_sentence ovf now s p = (Ok PsIncomplete, push_string (gsv_key tt c n) (gsv_text tt (fields n)) p)).
    { rewrite (gsv_message_step ovf now s p tt c n (fields n) M). apply (gsv_step_incomplete ovf tt c n _ p m); auto.
      intros ->. apply Hn. now left. }
    rewrite E. cbn [fst snd]. set (p1 := push_string _ _ _).
    destruct (IH p1) as (R & A1 & A2).
    + intros I. apply Hn. now right.
    + unfold p1. rewrite kept_push. destruct (decide _) as [X|X]; [|exact K].
      apply gsv_key_inj in X as (_ & _ & X); [|exact Ht|exact Ht]. exfalso. apply Hn. now left.
    + rewrite R. split; [reflexivity|]. split.
      * intros k [<-|I]; [|now apply A1].
        destruct (in_dec N.eq_dec n ns) as [I|I]; [now apply A1|]. apply stored_kept. rewrite A2.
        -- apply stored_kept. unfold p1. rewrite kept_push. now rewrite decide_True.
        -- intros j Hj X. apply text_inj in X. apply gsv_key_inj in X as (_ & _ & ->); auto.
      * intros e He. rewrite A2 by (intros j Hj; apply He; now right). unfold p1. rewrite stored_push.
        rewrite decide_False; [reflexivity|]. apply He. now left.
Qed.

Lemma numbers_to_split c : 1 <= c -> numbers_to c = 1 :: later c.
Proof. intros H. unfold later, numbers_to. destruct (N.to_nat c) as [|k] eqn:E; [lia|]. reflexivity. Qed.

Lemma later_in c n : In n (later c) <-> 2 <= n <= c.
Proof.
  destruct (N.lt_ge_cases c 1) as [H|H].
  - assert (c = 0) as -> by lia. cbn. lia.
  - pose proof (numbers_to_nodup c) as D. rewrite numbers_to_split in D by exact H. inversion D as [|? ? D1 D2]; subst.
    pose proof (numbers_to_in c n) as I. rewrite numbers_to_split in I by exact H. cbn [In] in I. split.
    + intros X. assert (n <> 1) by (intros ->; auto). destruct I as [I _]. specialize (I (or_intror X)). lia.
    + intros X. destruct I as [_ I]. destruct I as [I|I]; [lia|lia|exact I].
Qed.

Lemma later_length c : List.length (later c) = (N.to_nat c - 1)%nat.
Proof. unfold later. destruct (numbers_to c) eqn:E; pose proof (numbers_to_length c) as L; rewrite E in L; cbn in *; lia. Qed.

Lemma numbers_to_last c : 1 <= c -> numbers_to c = numbers_to (c - 1) ++ [c].
Proof.
  intros H. unfold numbers_to. replace (N.to_nat c) with (S (N.to_nat (c - 1))) by lia.
  rewrite seq_S, map_app. cbn [map]. repeat f_equal. lia.
Qed.

Lemma transmits_talker tt c fields ns calls : transmits tt c fields ns calls -> ns <> [] -> plain tt.
Proof. intros H. destruct H as [|n x ns calls M _]; [congruence|]. intros _. eapply gsv_with_plain, M. Qed.

Lemma transmitted_blocks tt c nav fields ns calls n : transmits tt c fields ns calls -> In n ns ->
  satellites nav (fields n) (gsv_blocks nav (gsv_text tt (fields n))).
Proof.
  intros H. induction H as [|k x ks xs M H IH]; intros [<-|I] || intros []; [eapply gsv_message_blocks; exact M|auto].
Qed.

(** ** C75 *)

(** Partial: a complete transmission in order gives its own satellites, and leaves none of its messages
    behind, whatever other messages of earlier transmissions wait, unless the last one does. *)
Theorem c75_in_order_partial ovf p tt c nav fields sats calls :
  1 <= c < 2 ^ 32 - 1 -> transmits tt c fields (numbers_to c) calls -> names_system tt nav ->
  (forall n, 1 <= n <= c -> satellites nav (fields n) (sats n)) ->
  stored p (Text (gsv_key tt c c)) = None ->
  results ovf calls p = List.repeat (Ok PsIncomplete) (N.to_nat c - 1) ++ [Ok (PsGsv (flat_map sats (numbers_to c)))] /\
  no_group (after ovf calls p) tt c /\
  agree (outside tt c) (after ovf calls p) p.
Proof.
  intros Hc H Hv Hs Hp. apply stored_kept_none in Hp.
  assert (Ht : plain tt) by (eapply transmits_talker; [exact H|rewrite numbers_to_split by lia; discriminate]).
  rewrite (numbers_to_last c) in H by lia. apply Forall2_app_inv_l in H as (l1 & l2 & H1 & H2 & ->).
  inversion H2 as [|? [now s] ? ? M H3]; subst. inversion H3; subst. cbn [snd] in M.
  destruct (gsv_wait ovf tt c fields c (numbers_to (c - 1)) l1 p Ht ltac:(lia) ltac:(lia) H1) as (R & A1 & A2);
    [rewrite numbers_to_in; lia|exact Hp|].
  rewrite results_app, after_app, R, results_cons, after_cons.
  rewrite (gsv_message_step ovf now s _ tt c c (fields c) M).
  destruct (gsv_finish ovf tt c c (fun i => gsv_text tt (fields i)) (after ovf l1 p) (numbers_to (c - 1)) Ht ltac:(lia)) as (E & N0 & A);
    [now rewrite <- numbers_to_last by lia|exact A1|].
  unfold gsv_text at 1 in E. rewrite E. cbn [results after run fst snd]. split; [|split].
  - rewrite numbers_to_length. replace (N.to_nat (c - 1)) with (N.to_nat c - 1)%nat by lia. f_equal. f_equal. f_equal. f_equal.
    rewrite !flat_map_concat_map. f_equal. apply map_ext_in. intros n Hn. apply numbers_to_in in Hn.
    eapply satellites_unique; [|now apply Hs]. rewrite (names_system_unique _ _ _ (names_system_nav tt) Hv).
    destruct (N.eq_dec n c) as [-> |Hne]; [eapply gsv_message_blocks; exact M|].
    eapply transmitted_blocks; [exact H1|]. apply numbers_to_in. lia.
  - exact N0.
  - intros e He. etransitivity; [exact (A e He)|]. apply A2. intros n Hn. apply He. apply numbers_to_in in Hn. lia.
Qed.
Print Assumptions c75_in_order_partial.

Lemma step_out ovf p tt c nav old new calls :
  2 <= c < 2 ^ 32 - 1 -> transmits tt c new (numbers_to c) calls -> names_system tt nav ->
  (forall n, In n (later c) -> kept p (gsv_key tt c n) = Some (gsv_text tt (old n))) ->
  results ovf calls p =
    Ok (PsGsv (gsv_blocks nav (gsv_text tt (new 1)) ++ flat_map (fun n => gsv_blocks nav (gsv_text tt (old n))) (later c)))
    :: List.repeat (Ok PsIncomplete) (N.to_nat c - 1) /\
  (forall n, In n (later c) -> kept (after ovf calls p) (gsv_key tt c n) = Some (gsv_text tt (new n))).
Proof.
  intros Hc H Hv Hp. pose proof (transmits_talker _ _ _ _ _ H) as Ht.
  rewrite numbers_to_split in H, Ht by lia. specialize (Ht ltac:(discriminate)).
  inversion H as [|? [now s] ? rest M H']; subst. cbn [snd] in M.
  rewrite results_cons, after_cons, (gsv_message_step ovf now s _ tt c 1 (new 1) M).
  destruct (gsv_finish ovf tt c 1 (fun i => gsv_text tt (if i =? 1 then new 1 else old i)) p (later c) Ht ltac:(lia)) as (E & N0 & A).
  - rewrite (numbers_to_split c) by lia. symmetry. apply Permutation_cons_append.
  - intros i Hi. rewrite (Hp i Hi). apply later_in in Hi. rewrite (proj2 (N.eqb_neq i 1)) by lia. reflexivity.
  - cbn [N.eqb Pos.eqb] in E, N0, A. unfold gsv_text at 1 in E. fold (gsv_text tt (new 1)) in *. rewrite E.
    destruct (gsv_wait ovf tt c new 1 (later c) rest (snd (gsv_step ovf tt c 1 (gsv_text tt (new 1)) p)) Ht ltac:(lia) ltac:(lia) H')
      as (R & A1 & _).
    + rewrite later_in. lia.
    + apply stored_kept_none, N0. lia.
    + rewrite R, later_length. split; [|exact A1]. f_equal. f_equal. f_equal.
      rewrite (numbers_to_split c) by lia. cbn [flat_map N.eqb Pos.eqb].
      rewrite (names_system_unique _ _ _ (names_system_nav tt) Hv). f_equal.
      rewrite !flat_map_concat_map. f_equal. apply map_ext_in. intros n Hn. apply later_in in Hn.
      rewrite (proj2 (N.eqb_neq n 1)) by lia. reflexivity.
Qed.

(** A lost first message puts the parser out of step for good: after it, however many transmissions
    arrive complete and in order, every report mixes two of them. *)
Theorem c75_lost_first_message_refuted ovf p tt c nav lost calls0 gs calls sats0 sats :
  2 <= c < 2 ^ 32 - 1 -> names_system tt nav -> no_group p tt c ->
  transmits tt c lost (later c) calls0 -> transmissions tt c gs calls ->
  (forall n, 2 <= n <= c -> satellites nav (lost n) (sats0 n)) ->
  Forall2 (fun fields l => forall n, 1 <= n <= c -> satellites nav (fields n) (l n)) gs sats ->
  results ovf (calls0 ++ List.concat calls) p =
  List.repeat (Ok PsIncomplete) (N.to_nat c - 1) ++ out_of_step c sats0 sats.
Proof.
  intros Hc Hv Hp H0 H Hs0 Hs.
  assert (Ht : plain tt).
  { eapply transmits_talker; [exact H0|]. intros E. pose proof (later_length c) as L. rewrite E in L. cbn in L. lia. }
  destruct (gsv_wait ovf tt c lost 1 (later c) calls0 p Ht ltac:(lia) ltac:(lia) H0) as (R & A & _).
  - rewrite later_in. lia.
  - apply stored_kept_none, Hp. lia.
  - rewrite results_app, R, later_length. f_equal.
    assert (B : forall n, In n (later c) -> gsv_blocks nav (gsv_text tt (lost n)) = sats0 n).
    { intros n Hn. eapply satellites_unique; [eapply transmitted_blocks; eassumption|]. apply later_in in Hn. now apply Hs0. }
    clear R H0 Hp Hs0. revert A. generalize (after ovf calls0 p). clear p. revert lost sats0 B sats Hs.
    induction H as [|g x gs calls Hg H IH]; intros old sats0 B sats Hs p A.
    + inversion Hs; subst. reflexivity.
    + inversion Hs as [|? l ? sats' Hl Hs']; subst. cbn [List.concat out_of_step].
      assert (Bg : forall n, 1 <= n <= c -> gsv_blocks nav (gsv_text tt (g n)) = l n).
      { intros n Hn. eapply satellites_unique; [|now apply Hl]. eapply transmitted_blocks; [exact Hg|now apply numbers_to_in]. }
      destruct (step_out ovf p tt c nav old g x Hc Hg Hv A) as (R & A').
      rewrite results_app, R. rewrite <- app_comm_cons. f_equal; [|f_equal].
      * rewrite Bg by lia. f_equal. f_equal. f_equal. rewrite !flat_map_concat_map. f_equal. apply map_ext_in. exact B.
      * apply (IH g l); auto. intros n Hn. apply Bg. apply later_in in Hn. lia.
Qed.
Print Assumptions c75_lost_first_message_refuted.

(** Two fragments of different messages with the same number on the same channel are joined: here the
    second half of one voyage report, whose first half was lost, and the first half of the next. *)
Definition ex_report (mmsi : N) (name : str) (destination : str) : str :=
  armor (voyage_bits 0 mmsi 0 9134270
    (map six_code (lit "3FOF8") ++ repeat 32 2 ++ []) (map six_code name ++ repeat 32 (20 - List.length name) ++ [])
    70 225 70 1 31 1 5 15 14 0 122 (map six_code destination ++ repeat 32 (20 - List.length destination) ++ []) false 0).
Definition ex_half (n : N) (payload : str) : str :=
  lit "!AIVDM,2," ++ dec n ++ lit ",3,A," ++ (if n =? 1 then firstn 50 payload else skipn 50 payload) ++ lit ",0".

Theorem c75_lost_first_fragment_refuted :
  exists one two d, results true [(ex_now, ex_half 2 one); (ex_now, ex_half 1 two); (ex_now, ex_half 2 two)] new_parser =
      [Ok PsIncomplete; Ok (PsVesselStaticData d); Ok PsIncomplete] /\
    (exists d1, results true [(ex_now, ex_half 1 one); (ex_now, ex_half 2 one)] new_parser = [Ok PsIncomplete; Ok (PsVesselStaticData d1)] /\
       vsd_mmsi d1 = 351759000 /\ vsd_destination d1 = Some (lit "NEW YORK")) /\
    (exists d2, results true [(ex_now, ex_half 1 two); (ex_now, ex_half 2 two)] new_parser = [Ok PsIncomplete; Ok (PsVesselStaticData d2)] /\
       vsd_mmsi d2 = 230000001 /\ vsd_destination d2 = Some (lit "HELSINKI")) /\
    vsd_mmsi d = 230000001 /\ vsd_destination d = Some (lit "NEW YORK").
Proof.
  exists (ex_report 351759000 (lit "EVER DIADEM") (lit "NEW YORK")), (ex_report 230000001 (lit "ISABELLA") (lit "HELSINKI")).
  eexists. split; [vm_compute; reflexivity|]. split; [eexists; split; [vm_compute; reflexivity|split; reflexivity]|].
  split; [eexists; split; [vm_compute; reflexivity|split; reflexivity]|]. split; reflexivity.
Qed.
Print Assumptions c75_lost_first_fragment_refuted.

(** Three transmissions of two messages each; the first message of the first is lost. *)
Definition ex_mix (k n : N) : str :=
  lit "$GPGSV,2," ++ dec n ++ lit ",2," ++ dec (10 * k + n) ++ lit ",40,083,46".
Definition ex_mix_fields (k n : N) : list str := tl (split_on 44 (ex_mix k n)).
Definition ex_mix_sats (k n : N) : list GsvData := [gps (10 * k + n) 40 83 46].

Example c75_example :
  transmits (lit "GP") 2 (ex_mix_fields 1) (later 2) [(ex_now, ex_mix 1 2)] /\
  transmissions (lit "GP") 2 [ex_mix_fields 2; ex_mix_fields 3]
    [[(ex_now, ex_mix 2 1); (ex_now, ex_mix 2 2)]; [(ex_now, ex_mix 3 1); (ex_now, ex_mix 3 2)]] /\
  Forall2 (fun fields l => forall n, 1 <= n <= 2 -> satellites NavGps (fields n) (l n))
    [ex_mix_fields 1; ex_mix_fields 2; ex_mix_fields 3] [ex_mix_sats 1; ex_mix_sats 2; ex_mix_sats 3] /\
  no_group new_parser (lit "GP") 2 /\ names_system (lit "GP") NavGps /\
  results true [(ex_now, ex_mix 1 2); (ex_now, ex_mix 2 1); (ex_now, ex_mix 2 2); (ex_now, ex_mix 3 1); (ex_now, ex_mix 3 2)] new_parser =
  [Ok PsIncomplete; Ok (PsGsv [gps 21 40 83 46; gps 12 40 83 46]); Ok PsIncomplete; Ok (PsGsv [gps 31 40 83 46; gps 22 40 83 46]);
   Ok PsIncomplete].
Proof.
  assert (M : forall k n, In k [1; 2; 3] -> In n [1; 2] -> gsv_message (ex_mix k n) (lit "GP") 2 n (ex_mix_fields k n)).
  { intros k n [<-|[<-|[<-|[]]]] [<-|[<-|[]]]; apply check_gsv_message; try (vm_compute; (reflexivity || discriminate || (split; reflexivity))). }
  assert (S : forall k n, In k [1; 2; 3] -> 1 <= n <= 2 -> satellites NavGps (ex_mix_fields k n) (ex_mix_sats k n)).
  { intros k n Hk Hn. assert (E : n = 1 \/ n = 2) by lia.
    assert (E' : ex_mix_sats k n = gsv_blocks NavGps (ex_mix k n)).
    { destruct E as [-> | ->], Hk as [<-|[<-|[<-|[]]]]; vm_compute; reflexivity. }
    rewrite E'. eapply gsv_blocks_satellites. destruct E as [-> | ->], Hk as [<-|[<-|[<-|[]]]]; vm_compute; reflexivity. }
  change (later 2) with [2]. unfold transmissions. change (numbers_to 2) with [1; 2].
  split; [|split; [|split; [|split; [|split]]]].
  - apply List.Forall2_cons; [apply M; cbn; tauto|apply List.Forall2_nil].
  - repeat (apply List.Forall2_cons; [repeat (apply List.Forall2_cons; [apply M; cbn; tauto|]); apply List.Forall2_nil|]). apply List.Forall2_nil.
  - repeat (apply List.Forall2_cons; [intros n Hn; apply S; [cbn; tauto|exact Hn]|]). apply List.Forall2_nil.
  - intros n _. reflexivity.
  - left; right; left; reflexivity.
  - vm_compute. reflexivity.
Qed.
