(** C63, C64: what depends on the build profile and on the clock. *)
From stdpp Require Import gmap.
From Coq Require Import List NArith ZArith Bool String Lia.
From Verif Require Import Base Str F64 Chrono Types Util AisMod Vdm Gnss Parser
  SpecText SpecResult SpecAis SpecTime SpecState SpecGnss SpecReal SpecFields SpecPanic SpecEnv
  StrFacts FrontFacts CallFacts ResultFacts BitFacts VdmFacts LayoutFacts StateFacts RunFacts FieldFacts
  PropFront PropAis PropState PropStatic PropFields PropTables PropPanic.
Import ListNotations.
Open Scope N_scope.
Local Opaque pick_string pick_u64 pick_i64 pick_eta parse_f64.

(** ** C63 *)

Lemma parse_payload_builds payload : parse_payload true payload <> Panic ->
  parse_payload false payload = parse_payload true payload.
Proof.
  induction payload as [|c t IH]; [reflexivity|]. cbn [parse_payload]. unfold payload_char.
  destruct (as_u8 c <? 48); [intros H; exfalso; apply H; reflexivity|]. intros H. cbn [andb] in H |- *. rewrite IH; [reflexivity|].
  intros E. rewrite E in H. cbn in H. exact (H eq_refl).
Qed.

Lemma handle_vdm_builds now t body st p : fst (handle_vdm true now t body st p) <> Panic ->
  handle_vdm false now t body st p = handle_vdm true now t body st p.
Proof.
  unfold handle_vdm. destruct (vdm_scan 0 vdm_start (split_on 44 body)) as [f|e|]; [|reflexivity|reflexivity].
  destruct (vdm_payload t f p) as [[payload|] p']; [|reflexivity].
  intros H. rewrite parse_payload_builds; [reflexivity|].
  intros E. rewrite E in H. cbn in H. congruence.
Qed.

Lemma handle_gsv_builds body nav p : fst (handle_gsv true body nav p) <> Panic ->
  handle_gsv false body nav p = handle_gsv true body nav p.
Proof.
  unfold handle_gsv. destruct (number parse_u32 (split_on 44 body) 1) as [c|e|]; [|reflexivity|reflexivity].
  destruct (number parse_u32 (split_on 44 body) 2) as [n|e|]; [|reflexivity|reflexivity]. cbv zeta.
  unfold gsv_range. destruct (unwrap_or c 0 <? u32_max); [reflexivity|]. cbn [fst]. congruence.
Qed.

(** A call that does not panic in a debug build gives the same result and the same state in a
    release build. *)
Theorem c63_builds_agree now s p :
  fst (parse_sentence true now s p) <> Panic ->
  parse_sentence false now s p = parse_sentence true now s p.
Proof.
  unfold parse_sentence. destruct (split_checksum s) as [body given].
  destruct (negb _ && _); [reflexivity|]. unfold parse_body.
  destruct (before_first 44 body) as [t0|]; [|reflexivity].
  destruct (recognize (lit "$") nav_of_talker t0) as [[nav t1]|]; [|reflexivity].
  destruct (recognize (lit "!") station_of_talker t1) as [[st t2]|]; [|reflexivity].
  unfold dispatch_sentence.
  destruct (str_eqb t2 (lit "$GGA")); [reflexivity|]. destruct (str_eqb t2 (lit "$RMC")); [reflexivity|].
  destruct (str_eqb t2 (lit "$GSA")); [reflexivity|].
  destruct (str_eqb t2 (lit "$GSV")); [apply handle_gsv_builds|].
  destruct (str_eqb t2 (lit "$VTG")); [reflexivity|]. destruct (str_eqb t2 (lit "$GLL")); [reflexivity|].
  destruct (existsb (str_eqb t2) unimplemented_types); [reflexivity|].
  destruct (str_eqb t2 (lit "!VDM") || str_eqb t2 (lit "!VDO")); [apply handle_vdm_builds|reflexivity].
Qed.
Print Assumptions c63_builds_agree.

(** Where only the debug build panics, it is for an overflow: a GSV group of 4294967295 messages or a
    payload character below '0'. *)
Theorem c63_differences now s p :
  clock now -> (0 <= dt_year now)%Z ->
  fst (parse_sentence true now s p) = Panic -> fst (parse_sentence false now s p) <> Panic ->
  (exists tt n, gsv_part s tt 4294967295 n) \/
  (exists tt fff payload, completes s tt fff p payload /\ Exists (fun c => c mod 256 < 48) payload).
Proof.
  intros Hc Hy Ht Hf. apply c08_panics in Ht; [|assumption..].
  destruct Ht as [t fields F Hne Hl|tt fields G T|tt fields G T|tt fields G M T|tt n G Ho|tt fff payload C B].
  1-4: exfalso; apply Hf, c08_panics; [assumption..|].
  - eapply panic_type; eassumption.
  - eapply panic_gga; eassumption.
  - eapply panic_rmc; eassumption.
  - eapply panic_gll; eassumption.
  - left. eauto.
  - destruct B as [Ho X|bits E1 E2 X|bits E1 E2 X]; [right; eauto 6|..]; exfalso; apply Hf, c08_panics; try assumption;
      (eapply panic_ais; [exact C|]); [eapply bad_time|eapply bad_eta]; eassumption.
Qed.
Print Assumptions c63_differences.

(** Whole runs agree if no call panics in the debug build. *)
Theorem c63_runs_agree h p :
  ~ In Panic (results true h p) -> run false h p = run true h p.
Proof.
  revert p. induction h as [|[now s] h IH]; intros p H; [reflexivity|].
  rewrite results_cons in H. rewrite !run_cons. rewrite c63_builds_agree.
  - specialize (IH (snd (parse_sentence true now s p))). rewrite !run_split in IH.
    assert (E : ~ In Panic (results true h (snd (parse_sentence true now s p)))) by (intros X; apply H; now right).
    specialize (IH E). now injection IH as -> ->.
  - intros X. apply H. left. exact X.
Qed.
Print Assumptions c63_runs_agree.

Example c63_example :
  fst (parse_sentence true ex_now (lit "!AIVDM,1,1,,A,15RTgt0PAso;90TKcjM8h6g208CQ,0*4A") new_parser) <> Panic /\
  fst (parse_sentence true ex_now (lit "!AIVDM,1,1,,A,15RTgt 0,0") new_parser) = Panic /\
  fst (parse_sentence false ex_now (lit "!AIVDM,1,1,,A,15RTgt 0,0") new_parser) <> Panic.
Proof. split; [vm_compute; discriminate|]. split; [vm_compute; reflexivity|vm_compute; discriminate]. Qed.

(** ** C64 *)

Lemma dispatch_message_state now now' t bv st own p :
  snd (dispatch_message now t bv st own p) = snd (dispatch_message now' t bv st own p).
Proof.
  unfold dispatch_message. generalize (pick_u64 bv 0 6). intros n. cbv zeta.
  destruct n as [|n]; [reflexivity|]. do 5 (destruct n as [n|n|]; try reflexivity).
Qed.

Lemma handle_vdm_state ovf now now' t body st p :
  snd (handle_vdm ovf now t body st p) = snd (handle_vdm ovf now' t body st p).
Proof.
  unfold handle_vdm. destruct (vdm_scan 0 vdm_start (split_on 44 body)) as [f|e|]; [|reflexivity|reflexivity].
  destruct (vdm_payload t f p) as [[payload|] p']; [|reflexivity].
  destruct (parse_payload ovf payload); [apply dispatch_message_state|reflexivity|reflexivity].
Qed.

(** The new state never depends on the clock. *)
Theorem c64_state ovf now now' s p :
  snd (parse_sentence ovf now s p) = snd (parse_sentence ovf now' s p).
Proof.
  unfold parse_sentence. destruct (split_checksum s) as [body given].
  destruct (negb _ && _); [reflexivity|]. unfold parse_body.
  destruct (before_first 44 body) as [t0|]; [|reflexivity].
  destruct (recognize (lit "$") nav_of_talker t0) as [[nav t1]|]; [|reflexivity].
  destruct (recognize (lit "!") station_of_talker t1) as [[st t2]|]; [|reflexivity].
  unfold dispatch_sentence.
  repeat match goal with |- context [if ?b then _ else _] => destruct b; [reflexivity|] end.
  destruct (str_eqb t2 (lit "!VDM") || str_eqb t2 (lit "!VDO")); [apply handle_vdm_state|reflexivity].
Qed.
Print Assumptions c64_state.

Lemma ok_opt_cases {E F A} (m : outcome E A) :
  (exists o, @ok_opt E F A m = Ok o) \/ @ok_opt E F A m = Panic.
Proof. destruct m; cbn; eauto. Qed.

Lemma pick_eta_not_err {E} bv i now (e : E) : pick_eta bv i now <> Err e.
Proof.
  Local Transparent pick_eta. unfold pick_eta. Local Opaque pick_eta. cbv zeta.
  destruct (_ && _); [discriminate|].
  destruct (_ =? 24); destruct (_ =? 60);
  match goal with |- bind (ymd_and_hms ?y ?m ?d ?h ?mi ?s) _ <> _ =>
    destruct (@ymd_and_hms_cases E y m d h mi s) as [[-> _]|[-> _]]; cbn [bind]; [|discriminate] end;
  destruct (dt_leb _ _); discriminate.
Qed.

Lemma same_refl o : same_but_times o o.
Proof. destruct o; constructor; try reflexivity. discriminate. Qed.

(** Finish a pair of computations that make the same steps to a timed result. *)
Ltac same_steps :=
  repeat match goal with |- same_but_times (bind ?m _) (bind ?m _) =>
    destruct m; cbn [bind]; [|apply same_refl|apply same_refl] end.
Ltac timed_steps :=
  let r := fresh in let E := fresh in intros r; revert r;
  repeat match goal with |- forall r, bind ?m _ = Ok r -> _ =>
    destruct m; cbn [bind]; [|discriminate|discriminate] end;
  intros r E; injection E as <-; exact Logic.I.

Lemma t5_times now now' bv st own : same_but_times (handle_t5 now bv st own) (handle_t5 now' bv st own).
Proof.
  unfold handle_t5. cbv zeta. same_steps.
  destruct (pick_eta bv 274 now) as [t|e|] eqn:E1; cbn [bind]; [|now apply pick_eta_not_err in E1|apply same_panic_left; timed_steps].
  destruct (pick_eta bv 274 now') as [t'|e|] eqn:E2; cbn [bind]; [|now apply pick_eta_not_err in E2|apply same_panic_right; timed_steps].
  same_steps. constructor. reflexivity.
Qed.

Lemma dispatch_message_times now now' t bv st own p :
  same_but_times (fst (dispatch_message now t bv st own p)) (fst (dispatch_message now' t bv st own p)).
Proof.
  unfold dispatch_message. generalize (pick_u64 bv 0 6). intros n. cbv zeta.
  destruct n as [|n]; [apply same_refl|].
  do 5 (try destruct n as [n|n|]; try apply same_refl; try apply t5_times).
Qed.

Lemma gga_times now now' body nav : same_but_times (handle_gga now body nav) (handle_gga now' body nav).
Proof.
  unfold handle_gga. cbv zeta. same_steps.
  destruct (ok_opt_cases (F := ParseError) (parse_hhmmss (field (split_on 44 body) 1) now)) as [[o ->]| ->]; cbn [bind];
    [|apply same_panic_left; timed_steps].
  destruct (ok_opt_cases (F := ParseError) (parse_hhmmss (field (split_on 44 body) 1) now')) as [[o' ->]| ->]; cbn [bind];
    [|apply same_panic_right; timed_steps].
  same_steps. now constructor.
Qed.

Lemma rmc_times now now' body nav : same_but_times (handle_rmc now body nav) (handle_rmc now' body nav).
Proof.
  unfold handle_rmc. cbv zeta. same_steps.
  destruct (ok_opt_cases (F := ParseError) (parse_yymmdd_hhmmss (field (split_on 44 body) 9) (field (split_on 44 body) 1) now)) as [[o ->]| ->]; cbn [bind];
    [|apply same_panic_left; timed_steps].
  destruct (ok_opt_cases (F := ParseError) (parse_yymmdd_hhmmss (field (split_on 44 body) 9) (field (split_on 44 body) 1) now')) as [[o' ->]| ->]; cbn [bind];
    [|apply same_panic_right; timed_steps].
  same_steps. now constructor.
Qed.

Lemma gll_times now now' body nav : same_but_times (handle_gll now body nav) (handle_gll now' body nav).
Proof.
  unfold handle_gll. cbv zeta. same_steps.
  destruct (ok_opt_cases (F := ParseError) (parse_hhmmss (field (split_on 44 body) 5) now)) as [[o ->]| ->]; cbn [bind];
    [|apply same_panic_left; timed_steps].
  destruct (ok_opt_cases (F := ParseError) (parse_hhmmss (field (split_on 44 body) 5) now')) as [[o' ->]| ->]; cbn [bind];
    [|apply same_panic_right; timed_steps].
  same_steps. now constructor.
Qed.

Lemma handle_vdm_times ovf now now' t body st p :
  same_but_times (fst (handle_vdm ovf now t body st p)) (fst (handle_vdm ovf now' t body st p)).
Proof.
  unfold handle_vdm. destruct (vdm_scan 0 vdm_start (split_on 44 body)) as [f|e|]; [|apply same_refl|apply same_refl].
  destruct (vdm_payload t f p) as [[payload|] p']; [|apply same_refl].
  destruct (parse_payload ovf payload); [apply dispatch_message_times|apply same_refl|apply same_refl].
Qed.

(** The result depends on the clock only in the time stamps of GGA, RMC and GLL reports and the ETA
    of static reports (and in whether these panic). *)
Theorem c64_only_times ovf now now' s p :
  same_but_times (fst (parse_sentence ovf now s p)) (fst (parse_sentence ovf now' s p)).
Proof.
  unfold parse_sentence. destruct (split_checksum s) as [body given].
  destruct (negb _ && _); [apply same_refl|]. unfold parse_body.
  destruct (before_first 44 body) as [t0|]; [|apply same_refl].
  destruct (recognize (lit "$") nav_of_talker t0) as [[nav t1]|]; [|apply same_refl].
  destruct (recognize (lit "!") station_of_talker t1) as [[st t2]|]; [|apply same_refl].
  unfold dispatch_sentence.
  destruct (str_eqb t2 (lit "$GGA")); [apply gga_times|]. destruct (str_eqb t2 (lit "$RMC")); [apply rmc_times|].
  destruct (str_eqb t2 (lit "$GSA")); [apply same_refl|]. destruct (str_eqb t2 (lit "$GSV")); [apply same_refl|].
  destruct (str_eqb t2 (lit "$VTG")); [apply same_refl|]. destruct (str_eqb t2 (lit "$GLL")); [apply gll_times|].
  destruct (existsb (str_eqb t2) unimplemented_types); [apply same_refl|].
  destruct (str_eqb t2 (lit "!VDM") || str_eqb t2 (lit "!VDO")); [apply handle_vdm_times|apply same_refl].
Qed.
Print Assumptions c64_only_times.

(** A result without such a time is returned whatever the clock shows. *)
Theorem c64_clock_irrelevant ovf now now' s p r :
  fst (parse_sentence ovf now s p) = Ok r -> ~ timed r ->
  parse_sentence ovf now' s p = parse_sentence ovf now s p.
Proof.
  intros E T. pose proof (c64_only_times ovf now now' s p) as S. pose proof (c64_state ovf now now' s p) as P.
  destruct (parse_sentence ovf now s p) as [o q]. destruct (parse_sentence ovf now' s p) as [o' q']. cbn [fst snd] in *.
  subst o q'. f_equal. inversion S as [a b H| |a H|a H]; subst.
  - destruct r; try (now contradiction T); destruct b; cbn in H; congruence.
  - contradiction T. now apply H.
Qed.
Print Assumptions c64_clock_irrelevant.

(** So is an error, unless the clock makes a time impossible (29 February). *)
Theorem c64_errors ovf now now' s p e :
  fst (parse_sentence ovf now s p) = Err e ->
  fst (parse_sentence ovf now' s p) = Err e \/ fst (parse_sentence ovf now' s p) = Panic.
Proof.
  intros E. pose proof (c64_only_times ovf now now' s p) as S. rewrite E in S. inversion S; auto.
Qed.
Print Assumptions c64_errors.

(** Whole runs at different times leave the same state. *)
Theorem c64_runs ovf h h' p : map snd h = map snd h' ->
  after ovf h p = after ovf h' p /\ Forall2 same_but_times (results ovf h p) (results ovf h' p).
Proof.
  revert h' p. induction h as [|[now s] h IH]; intros [|[now' s'] h'] p E; cbn in E; try discriminate.
  - split; [reflexivity|constructor].
  - injection E as <- E. rewrite !after_cons, !results_cons, (c64_state ovf now' now).
    destruct (IH h' (snd (parse_sentence ovf now s p)) E) as [X Y].
    split; [exact X|]. constructor; [apply c64_only_times|exact Y].
Qed.
Print Assumptions c64_runs.

(** The panic itself may depend on the clock: an arrival on 29 February. *)
Example c64_example :
  let leap := mk_datetime 2024 1 20 12 0 0 0 in let common := mk_datetime 2023 1 20 12 0 0 0 in
  let s := ex_voyage_sentence 71 2 29 14 0 122 in
  clock leap /\ clock common /\
  (exists d, fst (parse_sentence true leap s new_parser) = Ok (PsVesselStaticData d)) /\
  fst (parse_sentence true common s new_parser) = Panic /\
  (exists r, fst (parse_sentence true leap (lit "!AIVDM,1,1,,A,15RTgt0PAso;90TKcjM8h6g208CQ,0*4A") new_parser) = Ok r /\
   ~ timed r).
Proof.
  cbv zeta. split; [repeat split; cbn; try lia; unfold year_in_range; cbn; try lia; discriminate|].
  split; [repeat split; cbn; try lia; unfold year_in_range; cbn; try lia; discriminate|].
  split; [vm_compute; eexists; reflexivity|]. split; [vm_compute; reflexivity|].
  eexists. split; [vm_compute; reflexivity|]. intros H. exact H.
Qed.
