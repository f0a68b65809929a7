(** C39-C47, C55-C58: the fields of GGA, RMC, GSA, GLL and VTG sentences. *)
From Coq Require Import List NArith ZArith Bool String Lia QArith Qreals Reals Lra Floats.SpecFloat.
From Flocq Require Import Core.
From Verif Require Import Base Str F64 Chrono Types Util AisMod Vdm Gnss Parser
  SpecText SpecResult SpecTime SpecAis SpecReal SpecFields StrFacts FrontFacts CallFacts ResultFacts BitFacts VdmFacts
  LayoutFacts FloatFacts DecimalFacts FieldFacts PropFront.
Import ListNotations.
Open Scope N_scope.

Local Opaque parse_f64 f64_div f64_mul f64_of_Z f64_of_dec.

(** From a handler to the parser. *)
Lemma decides_sentence ovf now s p m (P : ParsedSentence -> Prop) (F K : Prop) :
  parse_sentence ovf now s p = (m, p) -> decides m P F K ->
  snd (parse_sentence ovf now s p) = p /\
  (forall r, fst (parse_sentence ovf now s p) = Ok r <-> P r) /\
  ((exists e, fst (parse_sentence ovf now s p) = Err e) <-> F) /\
  (fst (parse_sentence ovf now s p) = Panic <-> K).
Proof. intros -> [H1 H2 H3]. cbn [fst snd]. auto. Qed.

Lemma decides_some {E A} (m : outcome E A) P K : decides m P False K -> ~ (forall a, ~ P a) <-> exists a, P a.
Proof.
  intros [H1 H2 _]. split; [|intros (a & Ha) X; now apply (X a)]. destruct m as [a|e|].
  - intros _. exists a. now apply H1.
  - exfalso. apply H2. eauto.
  - intros N. destruct N. intros a Ha. apply H1 in Ha. discriminate.
Qed.

(** ** C39 *)

(** A GGA sentence: the result is the report of its fields; it fails exactly if a field is malformed
    and panics exactly if there is no time of day to read. *)
Theorem c39_gga ovf now s tt nav fields p :
  gnss_with s tt (lit "GGA") fields -> names_system tt nav -> clock now ->
  snd (parse_sentence ovf now s p) = p /\
  (forall r, fst (parse_sentence ovf now s p) = Ok r <-> exists d, r = PsGga d /\ gga_report now nav fields d) /\
  ((exists e, fst (parse_sentence ovf now s p) = Err e) <->
     (exists o, time_stamp now (fld fields 0) o) /\ gga_malformed fields) /\
  (fst (parse_sentence ovf now s p) = Panic <-> forall o, ~ time_stamp now (fld fields 0) o).
Proof.
  intros Hs Hn Hc. rewrite <- (names_system_unique _ _ _ (names_system_nav tt) Hn).
  destruct (gnss_with_body _ _ _ _ Hs (gnss_with_plain _ _ _ _ Hs)) as (body & given & _ & _ & Hf & Hr).
  specialize (Hr ovf now p _ (PGga now body (nav_of_talker tt))).
  rewrite <- (decides_some _ _ _ (hhmmss_decides (fld fields 0) now Hc)).
  exact (decides_sentence _ _ _ _ _ _ _ _ Hr (handle_gga_decides now body _ _ _ Hf Hc)).
Qed.
Print Assumptions c39_gga.

(** ** C40 *)

Theorem c40_rmc ovf now s tt nav fields p :
  gnss_with s tt (lit "RMC") fields -> names_system tt nav -> (0 <= dt_year now)%Z ->
  snd (parse_sentence ovf now s p) = p /\
  (forall r, fst (parse_sentence ovf now s p) = Ok r <-> exists d, r = PsRmc d /\ rmc_report now nav fields d) /\
  ((exists e, fst (parse_sentence ovf now s p) = Err e) <->
     (exists o, date_time_stamp now (fld fields 8) (fld fields 0) o) /\ rmc_malformed fields) /\
  (fst (parse_sentence ovf now s p) = Panic <-> forall o, ~ date_time_stamp now (fld fields 8) (fld fields 0) o).
Proof.
  intros Hs Hn Hc. rewrite <- (names_system_unique _ _ _ (names_system_nav tt) Hn).
  destruct (gnss_with_body _ _ _ _ Hs (gnss_with_plain _ _ _ _ Hs)) as (body & given & _ & _ & Hf & Hr).
  specialize (Hr ovf now p _ (PRmc now body (nav_of_talker tt))).
  rewrite <- (decides_some _ _ _ (yymmdd_decides (fld fields 8) (fld fields 0) now Hc)).
  exact (decides_sentence _ _ _ _ _ _ _ _ Hr (handle_rmc_decides now body _ _ _ Hf Hc)).
Qed.
Print Assumptions c40_rmc.

(** ** C41 *)

Theorem c41_gsa ovf now s tt nav fields p :
  gnss_with s tt (lit "GSA") fields -> names_system tt nav ->
  snd (parse_sentence ovf now s p) = p /\
  (forall r, fst (parse_sentence ovf now s p) = Ok r <-> exists d, r = PsGsa d /\ gsa_report nav fields d) /\
  ((exists e, fst (parse_sentence ovf now s p) = Err e) <-> gsa_malformed fields) /\
  fst (parse_sentence ovf now s p) <> Panic.
Proof.
  intros Hs Hn. rewrite <- (names_system_unique _ _ _ (names_system_nav tt) Hn).
  destruct (gnss_with_body _ _ _ _ Hs (gnss_with_plain _ _ _ _ Hs)) as (body & given & _ & _ & Hf & Hr).
  specialize (Hr ovf now p _ (PGsa now body (nav_of_talker tt))).
  destruct (decides_sentence _ _ _ _ _ _ _ _ Hr (handle_gsa_decides body _ _ _ Hf)) as (A & B & C & D).
  split; [exact A|]. split; [exact B|]. split; [exact C|]. now rewrite D.
Qed.
Print Assumptions c41_gsa.

(** At most twelve satellites are listed. *)
Theorem c41_at_most_twelve ovf now s tt fields p d :
  gnss_with s tt (lit "GSA") fields -> fst (parse_sentence ovf now s p) = Ok (PsGsa d) ->
  (List.length (gsa_prn_numbers d) <= 12)%nat /\ Forall (fun n => n <= 255) (gsa_prn_numbers d).
Proof.
  intros Hs Hr. destruct (c41_gsa ovf now s tt _ fields p Hs (names_system_nav tt)) as (_ & H & _).
  apply H in Hr as (d' & E & R). injection E as <-. destruct R as (_ & _ & _ & R & _).
  assert (L : forall fs l, numbers_in fs l -> (List.length l <= List.length fs)%nat /\ Forall (fun n => n <= 255) l).
  { induction 1 as [|fs l _ [IH IHf]|f fs v l _ [_ V] _ [IH IHf]]; cbn [List.length]; split; auto; try lia. }
  destruct (L _ _ R) as [L1 L2]. split; [|exact L2]. unfold flds in L1. rewrite map_length, seq_length in L1. exact L1.
Qed.
Print Assumptions c41_at_most_twelve.

(** ** C42 *)

Theorem c42_gll ovf now s tt nav fields p :
  gnss_with s tt (lit "GLL") fields -> names_system tt nav -> clock now ->
  snd (parse_sentence ovf now s p) = p /\
  (forall r, fst (parse_sentence ovf now s p) = Ok r <-> exists d, r = PsGll d /\ gll_report now nav fields d) /\
  ((exists e, fst (parse_sentence ovf now s p) = Err e) <-> gll_malformed fields) /\
  (fst (parse_sentence ovf now s p) = Panic <->
     ~ gll_malformed fields /\ forall o, ~ time_stamp now (fld fields 4) o).
Proof.
  intros Hs Hn Hc. rewrite <- (names_system_unique _ _ _ (names_system_nav tt) Hn).
  destruct (gnss_with_body _ _ _ _ Hs (gnss_with_plain _ _ _ _ Hs)) as (body & given & _ & _ & Hf & Hr).
  specialize (Hr ovf now p _ (PGll now body (nav_of_talker tt))).
  exact (decides_sentence _ _ _ _ _ _ _ _ Hr (handle_gll_decides now body _ _ _ Hf Hc)).
Qed.
Print Assumptions c42_gll.

(** ** C43 *)

Theorem c43_vtg ovf now s tt nav fields p :
  gnss_with s tt (lit "VTG") fields -> names_system tt nav ->
  (exists d, parse_sentence ovf now s p = (Ok (PsVtg d), p)) /\
  (forall d, fst (parse_sentence ovf now s p) = Ok (PsVtg d) <-> vtg_report nav fields d).
Proof.
  intros Hs Hn. rewrite <- (names_system_unique _ _ _ (names_system_nav tt) Hn).
  destruct (gnss_with_body _ _ _ _ Hs (gnss_with_plain _ _ _ _ Hs)) as (body & given & _ & _ & Hf & Hr).
  specialize (Hr ovf now p _ (PVtg now body (nav_of_talker tt))). rewrite Hr. split.
  - eexists. reflexivity.
  - intros d. cbn [fst]. exact (handle_vtg_means body _ _ _ d Hf).
Qed.
Print Assumptions c43_vtg.

Lemma check_gnss s tt fff fields : sentence s ((lit "$" ++ tt ++ fff) :: fields) -> fields <> [] ->
  utf8_bytes tt = 2%nat -> gnss_with s tt fff fields.
Proof. unfold gnss_with. auto. Qed.

Ltac gnss := apply check_gnss; [apply check_sentence; vm_compute; split; reflexivity|discriminate|reflexivity].

Definition ex_gga_fields := lit "$GPGGA,123519.00,4807.038,N,01131.000,W,1,08,0.9,545.4,M,46.9,M,,*7B".
Example c39_example :
  (exists fields, gnss_with ex_gga_fields (lit "GP") (lit "GGA") fields) /\ clock ex_now /\
  (exists d, parse_sentence true ex_now ex_gga_fields new_parser = (Ok (PsGga d), new_parser) /\
     gga_source d = NavGps /\ gga_timestamp d = Some (today ex_now 12 35 19) /\
     gga_quality d = QGpsFix /\ gga_satellite_count d = Some 8 /\ gga_hdop d = Some (f64_of_dec false 9 (-1)) /\
     gga_age_of_dgps d = None /\ gga_ref_station_id d = None) /\
  (exists e, fst (parse_sentence true ex_now (lit "$GPGGA,123519,4807,N,,,1,08,0.9,,M,,M,,") new_parser) = Err e) /\
  fst (parse_sentence true ex_now (lit "$GPGGA,,4807.0,N,,,1,08,0.9,,M,,M,,") new_parser) = Panic /\
  fst (parse_sentence true ex_now (lit "$GPGGA,250000,4807.0,N,,,1,08,0.9,,M,,M,,") new_parser) = Panic.
Proof.
  split; [eexists; gnss|]. split; [vm_compute; repeat split; intuition discriminate|]. split.
  - eexists. split; [vm_compute; reflexivity|]. vm_compute. auto 10.
  - split; [eexists; vm_compute; reflexivity|]. split; vm_compute; reflexivity.
Qed.

Definition ex_rmc_fields := lit "$GNRMC,225446.33,A,4916.45,N,12311.12,W,000.5,054.7,191194,020.3,W".
Example c40_example :
  (exists fields, gnss_with ex_rmc_fields (lit "GN") (lit "RMC") fields) /\
  (exists d, parse_sentence true ex_now ex_rmc_fields new_parser = (Ok (PsRmc d), new_parser) /\
     rmc_source d = NavCombination /\ rmc_timestamp d = Some (mk_datetime 2094 11 19 22 54 46 0) /\
     rmc_status_active d = Some true /\ rmc_bearing d = Some (f64_of_dec false 547 (-1)) /\
     rmc_variation d = Some (f64_of_dec true 203 (-1))) /\
  (exists e, fst (parse_sentence true ex_now (lit "$GNRMC,225446,B,,,,,,,191194,,") new_parser) = Err e) /\
  (exists e, fst (parse_sentence true ex_now (lit "$GNRMC,225446,A,,,,,,,191194,1.0,N") new_parser) = Err e) /\
  fst (parse_sentence true ex_now (lit "$GNRMC,225446,A,,,,,,,310294,,") new_parser) = Panic.
Proof.
  split; [eexists; gnss|]. split.
  - eexists. split; [vm_compute; reflexivity|]. vm_compute. auto 10.
  - split; [eexists; vm_compute; reflexivity|]. split; [eexists; vm_compute; reflexivity|]. vm_compute. reflexivity.
Qed.

Definition ex_gsa_fields := lit "$GPGSA,A,3,19,28,,14,18,27,,22,31,39,,,1.7,1.0,1.3*34".
Example c41_example :
  (exists fields, gnss_with ex_gsa_fields (lit "GP") (lit "GSA") fields) /\
  (exists d, parse_sentence true ex_now ex_gsa_fields new_parser = (Ok (PsGsa d), new_parser) /\
     gsa_mode1_automatic d = Some true /\ gsa_mode2_3d d = Some Fix3D /\
     gsa_prn_numbers d = [19; 28; 14; 18; 27; 22; 31; 39] /\ gsa_vdop d = Some (f64_of_dec false 13 (-1))) /\
  (exists e, fst (parse_sentence true ex_now (lit "$GPGSA,A,3,19,256") new_parser) = Err e).
Proof.
  split; [eexists; gnss|]. split.
  - eexists. split; [vm_compute; reflexivity|]. vm_compute. auto 10.
  - eexists; vm_compute; reflexivity.
Qed.

Definition ex_gll_fields := lit "$GLGLL,4916.45,N,12311.12,W,225444,A,D".
Example c42_example :
  (exists fields, gnss_with ex_gll_fields (lit "GL") (lit "GLL") fields) /\
  (exists d, parse_sentence true ex_now ex_gll_fields new_parser = (Ok (PsGll d), new_parser) /\
     gll_source d = NavGlonass /\ gll_timestamp d = Some (today ex_now 22 54 44) /\
     gll_data_valid d = Some true /\ gll_faa_mode d = Some FaaDifferential) /\
  (exists e, fst (parse_sentence true ex_now (lit "$GLGLL,4916,N,12311.12,W,,A,D") new_parser) = Err e) /\
  fst (parse_sentence true ex_now (lit "$GLGLL,4916.45,N,12311.12,W,,A,D") new_parser) = Panic.
Proof.
  split; [eexists; gnss|]. split.
  - eexists. split; [vm_compute; reflexivity|]. vm_compute. auto 10.
  - split; [eexists; vm_compute; reflexivity|]. vm_compute. reflexivity.
Qed.

Example c43_example :
  (exists fields, gnss_with (lit "$GPVTG,89.68,T,x,M,,N,0.5,K,A") (lit "GP") (lit "VTG") fields) /\
  (exists d, parse_sentence true ex_now (lit "$GPVTG,89.68,T,x,M,,N,0.5,K,A") new_parser = (Ok (PsVtg d), new_parser) /\
     vtg_cog_true d = Some (f64_of_dec false 8968 (-2)) /\ vtg_cog_magnetic d = None /\ vtg_sog_knots d = None /\
     vtg_sog_kph d = Some (f64_of_dec false 5 (-1)) /\ vtg_faa_mode d = Some FaaAutonomous).
Proof.
  split; [eexists; gnss|].
  eexists. split; [vm_compute; reflexivity|]. vm_compute. auto 10.
Qed.

(** ** All five at once *)

Lemma gnss_ok ovf now s tt fff fields p r nav : gnss_with s tt fff fields -> names_system tt nav ->
  In fff [lit "GGA"; lit "RMC"; lit "GSA"; lit "GLL"; lit "VTG"] -> clock now -> (0 <= dt_year now)%Z ->
  fst (parse_sentence ovf now s p) = Ok r -> gnss_report now nav fields fff r.
Proof.
  intros Hs Hn Hf Hc Hy Hr. cbn [In] in Hf. destruct Hf as [<-|[<-|[<-|[<-|[<-|[]]]]]].
  - destruct (c39_gga ovf now s tt nav fields p Hs Hn Hc) as (_ & H & _). apply H in Hr as (d & -> & R). now constructor.
  - destruct (c40_rmc ovf now s tt nav fields p Hs Hn Hy) as (_ & H & _). apply H in Hr as (d & -> & R). now constructor.
  - destruct (c41_gsa ovf now s tt nav fields p Hs Hn) as (_ & H & _). apply H in Hr as (d & -> & R). now constructor.
  - destruct (c42_gll ovf now s tt nav fields p Hs Hn Hc) as (_ & H & _). apply H in Hr as (d & -> & R). now constructor.
  - destruct (c43_vtg ovf now s tt nav fields p Hs Hn) as [(d & E) H]. rewrite E in Hr. cbn [fst] in Hr. injection Hr as <-.
    constructor. apply H. now rewrite E.
Qed.

Lemma report_coordinates now nav fields fff r n minus i j o : gnss_report now nav fields fff r ->
  In (n, minus, i, j, o) (coordinates r) ->
  (n = 2%nat /\ minus = lit "S" \/ n = 3%nat /\ minus = lit "W") /\
  field_value (angle n minus (fld fields j)) (fld fields i) o.
Proof.
  intros [d H|d H|d H|d H|d H] I; cbn [coordinates In] in I; try contradiction.
  - destruct H as (_ & _ & H1 & H2 & _). destruct I as [E|[E|[]]]; injection E as <- <- <- <- <-; auto.
  - destruct H as (_ & _ & _ & H1 & H2 & _). destruct I as [E|[E|[]]]; injection E as <- <- <- <- <-; auto.
  - destruct H as (_ & H1 & H2 & _). destruct I as [E|[E|[]]]; injection E as <- <- <- <- <-; auto.
Qed.

(** ** C44 *)

Open Scope R_scope.

Lemma angle_error d m : (d < 1000)%N -> 0 <= m < 100 ->
  Rabs (rnd (IZR (Z.of_N d) + rnd (rnd m / 60)) - (IZR (Z.of_N d) + m / 60)) <= / 10 ^ 12.
Proof.
  intros Hd Hm. destruct (angle_bounds d m Hd Hm) as ((A & _) & (B & _) & (C & _)).
  assert (D : 0 <= IZR (Z.of_N d) <= 1000) by (split; apply IZR_le; lia).
  pose proof (rnd_error 7 m ltac:(lia)) as E1. pose proof (rnd_error 2 (rnd m / 60) ltac:(lia)) as E2.
  pose proof (rnd_error 10 (IZR (Z.of_N d) + rnd (rnd m / 60)) ltac:(lia)) as E3.
  change (bpow radix2 7) with 128 in E1. change (bpow radix2 2) with 4 in E2. change (bpow radix2 10) with 1024 in E3.
  rewrite Rabs_pos_eq in E1 at 1 by lra. rewrite Rabs_pos_eq in E2 at 1 by lra. rewrite Rabs_pos_eq in E3 at 1 by lra.
  specialize (E1 ltac:(lra)). specialize (E2 ltac:(lra)). specialize (E3 ltac:(lra)).
  apply Rabs_le_inv in E1, E2, E3.
  assert (B1 : bpow radix2 (7 - 53) = / 70368744177664) by reflexivity.
  assert (B2 : bpow radix2 (2 - 53) = / 2251799813685248) by reflexivity.
  assert (B3 : bpow radix2 (10 - 53) = / 8796093022208) by reflexivity. rewrite B1 in E1. rewrite B2 in E2. rewrite B3 in E3.
  apply Rabs_le. change (10 ^ 12) with (10 * (10 * (10 * (10 * (10 * (10 * (10 * (10 * (10 * (10 * (10 * (10 * 1)))))))))))).
  set (x := rnd (IZR (Z.of_N d) + rnd (rnd m / 60))) in *. set (y := rnd (rnd m / 60)) in *. set (z := rnd m) in *. clearbody x y z. lra.
Qed.

(** Latitudes and longitudes of GGA, RMC and GLL: empty text means none; any other text is the fixed
    number of degree digits, two minute digits, a dot and a digit at least; the value is within 1e-12
    degrees of what is written, and the sign bit is set exactly for the letter S or W. *)
Theorem c44_text_coordinates ovf now s tt fff fields p r n minus i j o :
  gnss_with s tt fff fields -> In fff [lit "GGA"; lit "RMC"; lit "GLL"] ->
  clock now -> (0 <= dt_year now)%Z -> fst (parse_sentence ovf now s p) = Ok r ->
  In (n, minus, i, j, o) (coordinates r) ->
  match o with
  | None => fld fields i = []
  | Some x => exists degrees minutes, degrees_minutes n (fld fields i) degrees minutes /\ finite x /\ proper x /\
      (fld fields j = minus -> negative x = true /\ Rabs (real_of x + (IZR (Z.of_N degrees) + minutes / 60)) <= / 10 ^ 12) /\
      (fld fields j <> minus -> negative x = false /\ Rabs (real_of x - (IZR (Z.of_N degrees) + minutes / 60)) <= / 10 ^ 12)
  end.
Proof.
  intros Hs Hf Hc Hy Hr Hi. assert (Hf' : In fff [lit "GGA"; lit "RMC"; lit "GSA"; lit "GLL"; lit "VTG"]) by (cbn [In] in *; tauto).
  pose proof (gnss_ok ovf now s tt fff fields p r _ Hs (names_system_nav tt) Hf' Hc Hy Hr) as R.
  apply (report_coordinates _ _ _ _ _ n minus i j o) in R as [Hn V]; [|exact Hi].
  destruct V as [E|x N (d & mi & m & q & y & D & N1 & N2 & N3 & S & Hm & Hp)]; [exact E|].
  assert (Hn3 : (n <= 3)%nat) by (destruct Hn as [[-> _]|[-> _]]; lia).
  destruct (degrees_minutes_bound _ _ _ _ Hn3 D) as [B1 B2]. pose proof (angle_error d mi B1 B2) as ER.
  rewrite <- (angle_steps d mi m q y B1 B2 N1 N2 N3) in ER.
  exists d, mi. split; [exact D|]. destruct (str_eqb_spec (fld fields j) minus) as [E|E].
  - rewrite (Hm E). split; [apply f64_neg_finite, N3|]. split; [apply f64_neg_proper, N3|]. split; [|tauto]. intros _. split.
    + destruct N3 as (Fy & _). destruct y; cbn in S |- *; try destruct Fy; now subst.
    + rewrite f64_neg_real. rewrite <- Rabs_Ropp. replace (- (- real_of y + (IZR (Z.of_N d) + mi / 60))) with (real_of y - (IZR (Z.of_N d) + mi / 60)) by lra. exact ER.
  - rewrite (Hp E). split; [apply N3|]. split; [apply N3|]. split; [tauto|]. auto.
Qed.
Print Assumptions c44_text_coordinates.

(** The text of a coordinate is malformed exactly if it does not have that shape. *)
Lemma angle_malformed n minus h f : (n = 2 \/ n = 3)%nat ->
  malformed (angle n minus h) f <-> f <> [] /\ ~ exists degrees minutes, degrees_minutes n f degrees minutes.
Proof.
  intros Hn. split; intros [N H]; (split; [exact N|]).
  - intros (d & m & D). pose proof D as [dd mm frac rest E F1 F2 F3 L1 L2 Nf R Ed Em].
    destruct (degrees_minutes_bound n f d m ltac:(lia) D) as [B1 B2]. rewrite Em in B2.
    destruct (angle_value d _ _ B1 B2) as (N1 & N2 & N3 & S). rewrite <- Em in N1.
    set (q := f64_div _ _) in N2, N3. set (y := f64_add _ _) in N3, S. set (k := f64_of_dec _ _ _) in N1, N2.
    apply (H (if str_eqb h minus then f64_neg y else y)). exists d, m, k, q, y.
    refine (conj D (conj N1 (conj N2 (conj N3 (conj S _))))). destruct (str_eqb_spec h minus); split; tauto.
  - intros v (d & m & _ & _ & _ & D & _). apply H. eauto.
Qed.

(** The readers of latitudes and longitudes refuse exactly the texts that are not empty and do not
    have that shape, whatever the hemisphere field says. *)
Theorem c44_refused f h :
  ((exists e, parse_latitude_ddmm_mmm f h = Err e) <-> f <> [] /\ ~ exists degrees minutes, degrees_minutes 2 f degrees minutes) /\
  ((exists e, parse_longitude_dddmm_mmm f h = Err e) <-> f <> [] /\ ~ exists degrees minutes, degrees_minutes 3 f degrees minutes).
Proof.
  split.
  - rewrite <- (angle_malformed 2 (lit "S") h f (or_introl eq_refl)). apply (decides_err _ _ _ _ (parse_angle_decides 2 (lit "S") _ f h ltac:(lia))).
  - rewrite <- (angle_malformed 3 (lit "W") h f (or_intror eq_refl)). apply (decides_err _ _ _ _ (parse_angle_decides 3 (lit "W") _ f h ltac:(lia))).
Qed.
Print Assumptions c44_refused.

(** The hemisphere only changes the sign bit: the same text read with and without the letter S or W. *)
Theorem c44_mirror ovf now s s' tt tt' fff fff' fields fields' p p' r r' n minus i j i' j' x y :
  gnss_with s tt fff fields -> In fff [lit "GGA"; lit "RMC"; lit "GLL"] ->
  gnss_with s' tt' fff' fields' -> In fff' [lit "GGA"; lit "RMC"; lit "GLL"] ->
  clock now -> (0 <= dt_year now)%Z ->
  fst (parse_sentence ovf now s p) = Ok r -> fst (parse_sentence ovf now s' p') = Ok r' ->
  In (n, minus, i, j, Some x) (coordinates r) -> In (n, minus, i', j', Some y) (coordinates r') ->
  fld fields i = fld fields' i' -> fld fields j = minus -> fld fields' j' <> minus -> x = f64_neg y.
Proof.
  intros Hs Hf Hs' Hf' Hc Hy Hr Hr' Hi Hi' Et Ej Ej'.
  assert (G : In fff [lit "GGA"; lit "RMC"; lit "GSA"; lit "GLL"; lit "VTG"]) by (cbn [In] in *; tauto).
  assert (G' : In fff' [lit "GGA"; lit "RMC"; lit "GSA"; lit "GLL"; lit "VTG"]) by (cbn [In] in *; tauto).
  pose proof (gnss_ok ovf now s tt fff fields p r _ Hs (names_system_nav tt) G Hc Hy Hr) as R.
  pose proof (gnss_ok ovf now s' tt' fff' fields' p' r' _ Hs' (names_system_nav tt') G' Hc Hy Hr') as R'.
  apply (report_coordinates _ _ _ _ _ n minus i j (Some x)) in R as [Hn V]; [|exact Hi].
  apply (report_coordinates _ _ _ _ _ n minus i' j' (Some y)) in R' as [_ V']; [|exact Hi'].
  assert (Hn3 : (n <= 3)%nat) by (destruct Hn as [[-> _]|[-> _]]; lia).
  inversion V as [|x' N Hx E1]; subst x'. inversion V' as [|y' N' Hy' E2]; subst y'. rewrite <- Et in Hy'. rewrite Ej in Hx.
  destruct Hy' as (d & mi & m & q & z & D & N1 & N2 & N3 & S & _ & Hp). rewrite (Hp Ej').
  apply (angle_unique n minus minus (fld fields i)); [exact Hn3|exact Hx|]. exists d, mi, m, q, z.
  refine (conj D (conj N1 (conj N2 (conj N3 (conj S _))))). tauto.
Qed.
Print Assumptions c44_mirror.

Example c44_example :
  (exists d, fst (parse_sentence true ex_now ex_gga_fields new_parser) = Ok (PsGga d) /\
     coordinates (PsGga d) =
       [(2%nat, lit "S", 1%nat, 2%nat, Some (S754_finite false 6771907948439824 (-47)));
        (3%nat, lit "W", 3%nat, 4%nat, Some (S754_finite true 6483306963568777 (-49)))]) /\
  degrees_minutes 2 (lit "4807.038") 48 (IZR 7038 * powerRZ 10 (-3)) /\
  ~ (exists degrees minutes, degrees_minutes 2 (lit "4807") degrees minutes).
Proof.
  split; [|split].
  - eexists. split; [vm_compute; reflexivity|]. vm_compute. reflexivity.
  - apply degrees_minutes_intro with (dd := lit "48") (mm := lit "07") (frac := lit "038") (rest := []); try reflexivity; try discriminate.
    all: repeat constructor; discriminate.
  - intros (d & m & [dd mm frac rest E _ _ _ L1 L2 Nf _ _ _]).
    apply (f_equal (@List.length N)) in E. rewrite !app_length, L1, L2 in E. destruct frac; [now destruct Nf|]. cbn in E. lia.
Qed.

(** ** C45 *)

Lemma rnd_nat z : (0 <= z <= 2 ^ 53)%Z -> rnd (IZR z) = IZR z.
Proof. intros H. apply rnd_exact. apply double_value_format, integer_double. lia. Qed.

(** A coordinate is in the range if the written one is (and not inside if it is not): [limit] degrees
    either way, for any whole number. *)
Theorem c45_in_range ovf now s tt fff fields p r n minus i j x degrees minutes limit :
  gnss_with s tt fff fields -> In fff [lit "GGA"; lit "RMC"; lit "GLL"] ->
  clock now -> (0 <= dt_year now)%Z -> fst (parse_sentence ovf now s p) = Ok r ->
  In (n, minus, i, j, Some x) (coordinates r) -> degrees_minutes n (fld fields i) degrees minutes ->
  (0 <= limit <= 1000)%Z ->
  (IZR (Z.of_N degrees) + minutes / 60 <= IZR limit -> Rabs (real_of x) <= IZR limit) /\
  (IZR limit <= IZR (Z.of_N degrees) + minutes / 60 -> IZR limit <= Rabs (real_of x)).
Proof.
  intros Hs Hf Hc Hy Hr Hi D Hl. assert (Hf' : In fff [lit "GGA"; lit "RMC"; lit "GSA"; lit "GLL"; lit "VTG"]) by (cbn [In] in *; tauto).
  pose proof (gnss_ok ovf now s tt fff fields p r _ Hs (names_system_nav tt) Hf' Hc Hy Hr) as R.
  apply (report_coordinates _ _ _ _ _ n minus i j (Some x)) in R as [Hn V]; [|exact Hi].
  inversion V as [|x' Nf A Ex]; subst x'. destruct A as (d & mi & m & q & y & D' & N1 & N2 & N3 & S & Hm & Hp).
  destruct (degrees_minutes_unique _ _ _ _ _ _ D D') as [<- <-].
  assert (Hn3 : (n <= 3)%nat) by (destruct Hn as [[-> _]|[-> _]]; lia).
  destruct (degrees_minutes_bound _ _ _ _ Hn3 D) as [B1 B2].
  pose proof (angle_steps _ _ m q y B1 B2 N1 N2 N3) as E. destruct (angle_bounds _ _ B1 B2) as (_ & (Q & _) & (Yb & _)).
  assert (Ax : Rabs (real_of x) = real_of y).
  { destruct (str_eqb_spec (fld fields j) minus) as [Ej|Ej].
    - rewrite (Hm Ej), f64_neg_real, Rabs_Ropp, E. apply Rabs_pos_eq. lra.
    - rewrite (Hp Ej), E. apply Rabs_pos_eq. lra. }
  rewrite Ax, E. set (k := Z.of_N degrees) in *.
  assert (Hk : (0 <= k)%Z) by (unfold k; lia).
  assert (Em : forall z, (0 <= z <= 1000)%Z -> rnd (IZR (z * 60)) = IZR (z * 60) /\ rnd (IZR z) = IZR z) by (intros z Hz; split; apply rnd_nat; lia).
  split; intros H.
  - assert (KL : (k <= limit)%Z) by (apply le_IZR; lra).
    destruct (Em (limit - k)%Z ltac:(lia)) as [E1 E2]. rewrite mult_IZR, minus_IZR in E1. rewrite minus_IZR in E2.
    assert (H1 : rnd minutes <= (IZR limit - IZR k) * 60) by (rewrite <- E1; apply rnd_le; lra).
    assert (H2 : rnd (rnd minutes / 60) <= IZR limit - IZR k) by (rewrite <- E2; apply rnd_le; lra).
    destruct (Em limit Hl) as [_ E3]. rewrite <- E3. apply rnd_le. lra.
  - destruct (Em limit Hl) as [_ E3]. rewrite <- E3. apply rnd_le. destruct (Z.le_gt_cases limit k) as [KL|KL].
    + apply IZR_le in KL. lra.
    + destruct (Em (limit - k)%Z ltac:(lia)) as [E1 E2]. rewrite mult_IZR, minus_IZR in E1. rewrite minus_IZR in E2.
      assert (H1 : (IZR limit - IZR k) * 60 <= rnd minutes) by (rewrite <- E1; apply rnd_le; lra).
      assert (H2 : IZR limit - IZR k <= rnd (rnd minutes / 60)) by (rewrite <- E2; apply rnd_le; lra). lra.
Qed.
Print Assumptions c45_in_range.

(** Degrees below 90 (180) and minutes below 60, or exactly 90 (180) degrees, are in the legal range. *)
Theorem c45_legal_text ovf now s tt fff fields p r n minus i j x degrees minutes :
  gnss_with s tt fff fields -> In fff [lit "GGA"; lit "RMC"; lit "GLL"] ->
  clock now -> (0 <= dt_year now)%Z -> fst (parse_sentence ovf now s p) = Ok r ->
  In (n, minus, i, j, Some x) (coordinates r) -> degrees_minutes n (fld fields i) degrees minutes ->
  let limit := if Nat.eqb n 2 then 90%Z else 180%Z in
  (Z.of_N degrees < limit)%Z /\ minutes < 60 \/ Z.of_N degrees = limit /\ minutes = 0 ->
  Rabs (real_of x) <= IZR limit.
Proof.
  intros Hs Hf Hc Hy Hr Hi D limit H.
  assert (Hl : (0 <= limit <= 1000)%Z) by (unfold limit; destruct (Nat.eqb n 2); lia).
  destruct (c45_in_range ovf now s tt fff fields p r n minus i j x degrees minutes limit Hs Hf Hc Hy Hr Hi D Hl) as [C _].
  apply C. destruct H as [[H1 H2]|[-> ->]]; [|lra].
  assert (X : IZR (Z.of_N degrees) <= IZR (limit - 1)) by (apply IZR_le; lia). rewrite minus_IZR in X. lra.
Qed.
Print Assumptions c45_legal_text.

(** Nothing checks the range: this latitude is above 100 degrees. *)
Theorem c45_out_of_range_refuted :
  exists d x, fst (parse_sentence true ex_now (lit "$GPGGA,123519,9999.9,N,,,,,,,,,,,") new_parser) = Ok (PsGga d) /\
    gga_latitude d = Some x /\ 100 < real_of x.
Proof.
  eexists _, _. split; [vm_compute; reflexivity|]. split; [reflexivity|].
  cbn [real_of]. match goal with |- context [powerRZ 2 ?e] => assert (powerRZ 2 e = / IZR (2 ^ (- e))) as -> end.
  { rewrite powerRZ_bpow. reflexivity. }
  match goal with |- _ < _ * / IZR ?z => let z' := eval vm_compute in z in change z with z' end. lra.
Qed.
Print Assumptions c45_out_of_range_refuted.

Example c45_example :
  exists d x, fst (parse_sentence true ex_now (lit "$GPGGA,123519,9000.00,S,,,,,,,,,,,") new_parser) = Ok (PsGga d) /\
    gga_latitude d = Some x /\ real_of x = -90 /\ degrees_minutes 2 (lit "9000.00") 90 0.
Proof.
  eexists _, _. split; [vm_compute; reflexivity|]. split; [reflexivity|]. split.
  - cbn [real_of]. match goal with |- context [powerRZ 2 ?e] => assert (powerRZ 2 e = / IZR (2 ^ (- e))) as -> end.
    { rewrite powerRZ_bpow. reflexivity. }
    match goal with |- _ * / IZR ?z = _ => let z' := eval vm_compute in z in change z with z' end. lra.
  - apply degrees_minutes_intro with (dd := lit "90") (mm := lit "00") (frac := lit "00") (rest := []); try reflexivity; try discriminate.
    + repeat constructor; discriminate.
    + repeat constructor; discriminate.
    + repeat constructor; discriminate.
    + change (numeral_value (lit "00" ++ lit "00")) with 0%N. unfold decimal_size. cbn [Z.of_N]. lra.
Qed.

(** ** C46 *)

Open Scope N_scope.

(** Whole numbers of GGA: field, largest value, value. *)
Definition integers (d : GgaData) : list (nat * N * option N) :=
  [(6%nat, 255, gga_satellite_count d); (13%nat, 65535, gga_ref_station_id d)].

Lemma gga_ok ovf now s tt fields p d : gnss_with s tt (lit "GGA") fields -> clock now ->
  fst (parse_sentence ovf now s p) = Ok (PsGga d) -> gga_report now (nav_of_talker tt) fields d.
Proof.
  intros Hs Hc Hr. destruct (c39_gga ovf now s tt _ fields p Hs (names_system_nav tt) Hc) as (_ & H & _).
  apply H in Hr as (d' & E & R). now injection E as ->.
Qed.

(** A number field is empty or a numeral in the range of its type, and the value is its value. *)
Theorem c46_integer_fields ovf now s tt fields p d :
  gnss_with s tt (lit "GGA") fields -> clock now -> fst (parse_sentence ovf now s p) = Ok (PsGga d) ->
  (forall i max o, In (i, max, o) (integers d) ->
     match o with
     | None => fld fields i = []
     | Some v => denotes (fld fields i) v /\ v <= max
     end) /\
  (fld fields 5 = [] /\ gga_quality d = QInvalid \/
   exists v, denotes (fld fields 5) v /\ v <= 255 /\ gga_quality d = nth (N.to_nat v) qualities QInvalid).
Proof.
  intros Hs Hc Hr. apply (gga_ok ovf now s tt fields p d Hs Hc) in Hr as (_ & _ & _ & _ & (q & Hq & Eq) & H1 & _ & _ & _ & _ & H2).
  split.
  - intros i max o I. cbn [integers In] in I. destruct I as [E|[E|[]]]; injection E as <- <- <-.
    + destruct H1 as [E|v N [D B]]; auto.
    + destruct H2 as [E|v N [D B]]; auto.
  - destruct Hq as [E|v N [D B]]; [left|right; exists v]; auto.
Qed.
Print Assumptions c46_integer_fields.

Lemma denotes_zeros k n : denotes (repeat 48 k ++ dec n) n.
Proof.
  destruct (dec_denotes n) as (ds & E & [N F] & V).
  assert (Ed : dec n = ds).
  { destruct E as [E|E]; [exact E|]. exfalso. assert (X : Forall (fun c => 48 <= c <= 57) (dec n)) by apply dec_digits.
    rewrite E in X. inversion X as [|? ? Y]; subst. lia. }
  exists (repeat 48 k ++ ds). rewrite Ed. split; [now left|]. split.
  - split; [intros X; apply app_eq_nil in X as [_ X]; auto|]. apply Forall_app. split; [|exact F].
    apply Forall_forall. intros c Hc. apply repeat_spec in Hc as ->. lia.
  - unfold numeral_value in *. rewrite fold_left_app. assert (Z0 : fold_left (fun v d => 10 * v + (d - 48)) (repeat 48 k) 0 = 0).
    { clear. induction k as [|k IH]; [reflexivity|]. exact IH. }
    rewrite Z0. exact V.
Qed.

(** Formatting a number, with any leading zeros, and parsing it gives it back; a number above the
    range or any other text is refused. *)
Theorem c46_round_trip ovf now s tt fields p i max n k :
  gnss_with s tt (lit "GGA") fields -> clock now -> In (i, max) [(5%nat, 255); (6%nat, 255); (13%nat, 65535)] ->
  fld fields i = repeat 48 k ++ dec n ->
  (n <= max -> forall d, fst (parse_sentence ovf now s p) = Ok (PsGga d) ->
     if Nat.eqb i 5 then gga_quality d = nth (N.to_nat n) qualities QInvalid else In (i, max, Some n) (integers d)) /\
  (max < n -> forall r, fst (parse_sentence ovf now s p) <> Ok r).
Proof.
  intros Hs Hc Hi Hf. pose proof (denotes_zeros k n) as D. rewrite <- Hf in D.
  assert (Hne : fld fields i <> []) by (rewrite Hf; intros X; apply app_eq_nil in X as [_ X]; now apply dec_nonempty in X).
  assert (U : forall v, denotes (fld fields i) v -> v = n).
  { intros v Hv. assert (A : parse_uint (N.max v n) (fld fields i) = Some v) by (apply parse_uint_spec; split; [exact Hv|lia]).
    assert (B : parse_uint (N.max v n) (fld fields i) = Some n) by (apply parse_uint_spec; split; [exact D|lia]). congruence. }
  split.
  - intros Hm d Hr. destruct (c46_integer_fields ovf now s tt fields p d Hs Hc Hr) as [H Q].
    cbn [In] in Hi. destruct Hi as [E|[E|[E|[]]]]; injection E as <- <-; cbn [Nat.eqb].
    + destruct Q as [[E _]|(v & Dv & _ & E)]; [now destruct Hne|]. apply U in Dv as ->. exact E.
    + specialize (H 6%nat 255 (gga_satellite_count d) (or_introl eq_refl)). cbn [integers In]. left.
      destruct (gga_satellite_count d) as [v|]; [|now destruct Hne]. destruct H as [Dv _]. now apply U in Dv as ->.
    + specialize (H 13%nat 65535 (gga_ref_station_id d) (or_intror (or_introl eq_refl))). cbn [integers In]. right. left.
      destruct (gga_ref_station_id d) as [v|]; [|now destruct Hne]. destruct H as [Dv _]. now apply U in Dv as ->.
  - intros Hm r Hr. destruct (c39_gga ovf now s tt _ fields p Hs (names_system_nav tt) Hc) as (_ & H & _).
    pose proof Hr as Hr'. apply H in Hr as (d & -> & _). destruct (c46_integer_fields ovf now s tt fields p d Hs Hc Hr') as [G Q].
    cbn [In] in Hi. destruct Hi as [E|[E|[E|[]]]]; injection E as <- <-.
    + destruct Q as [[E _]|(v & Dv & B & E)]; [now destruct Hne|]. apply U in Dv as ->. lia.
    + specialize (G 6%nat 255 (gga_satellite_count d) (or_introl eq_refl)).
      destruct (gga_satellite_count d) as [v|]; [|now destruct Hne]. destruct G as [Dv B]. apply U in Dv as ->. lia.
    + specialize (G 13%nat 65535 (gga_ref_station_id d) (or_intror (or_introl eq_refl))).
      destruct (gga_ref_station_id d) as [v|]; [|now destruct Hne]. destruct G as [Dv B]. apply U in Dv as ->. lia.
Qed.
Print Assumptions c46_round_trip.

Example c46_example :
  (exists d, fst (parse_sentence true ex_now (lit "$GPGGA,123519,,,,,+8,0012,,,,,,,065535") new_parser) = Ok (PsGga d) /\
     gga_quality d = QSimulationMode /\ integers d = [(6%nat, 255, Some 12); (13%nat, 65535, Some 65535)]) /\
  (exists e, fst (parse_sentence true ex_now (lit "$GPGGA,123519,,,,,8,256,,,,,,,") new_parser) = Err e) /\
  (exists e, fst (parse_sentence true ex_now (lit "$GPGGA,123519,,,,,8,-1,,,,,,,") new_parser) = Err e).
Proof.
  split; [eexists; split; [vm_compute; reflexivity|]; vm_compute; auto|].
  split; eexists; vm_compute; reflexivity.
Qed.

(** ** C47 *)

Lemma decimal_field f o neg n e : lenient_value reads_double f o -> decimal f neg n e ->
  (decimal_size n e < double_overflow)%R ->
  exists x, o = Some x /\ finite x /\ negative x = neg /\
    nearest (if neg then - decimal_size n e else decimal_size n e)%R x.
Proof.
  intros H D S. destruct (f64_of_dec_nearest neg n e S) as [N1 N2]. unfold signed in N1.
  assert (R : reads_double f (f64_of_dec neg n e)) by (eapply reads_decimal; eauto).
  destruct H as [[-> |H]|x Nf Hx].
  - destruct D as [sign ip dot fp ex x E _ _ _ Ne _ _ _ _]. symmetry in E.
    apply app_eq_nil in E as [_ E]. apply app_eq_nil in E as [-> E]. apply app_eq_nil in E as [_ E]. apply app_eq_nil in E as [-> _]. now destruct Ne.
  - now apply H in R.
  - exists x. assert (x = f64_of_dec neg n e) as ->.
    { apply parse_f64_reads in Hx, R. congruence. }
    split; [reflexivity|]. split; [apply N1|]. split; [exact N2|exact N1].
Qed.

Lemma field_lenient {A} (means : str -> A -> Prop) f o : field_value means f o -> lenient_value means f o.
Proof. intros [E|v N H]; constructor; auto. Qed.

Lemma report_decimals now nav fields fff r i o : gnss_report now nav fields fff r -> In (i, o) (decimals r) ->
  lenient_value reads_double (fld fields i) o.
Proof.
  intros [d H|d H|d H|d H|d H] I; cbn [decimals In] in I; try contradiction.
  - destruct H as (_ & _ & _ & _ & _ & _ & H1 & H2 & H3 & H4 & _).
    destruct I as [E|[E|[E|[E|[]]]]]; injection E as <- <-; now apply field_lenient.
  - destruct H as (_ & _ & _ & _ & _ & H1 & H2 & _). destruct I as [E|[E|[]]]; injection E as <- <-; now apply field_lenient.
  - destruct H as (_ & _ & _ & _ & H1 & H2 & H3). destruct I as [E|[E|[E|[]]]]; injection E as <- <-; now apply field_lenient.
  - destruct H as (_ & H1 & H2 & H3 & H4 & _). destruct I as [E|[E|[E|[E|[]]]]]; injection E as <- <-; assumption.
Qed.

(** A decimal number in the range of doubles gives the nearest double, which is finite. *)
Theorem c47_nearest_double ovf now s tt fff fields p r i o neg n e :
  gnss_with s tt fff fields -> In fff [lit "GGA"; lit "RMC"; lit "GSA"; lit "VTG"] ->
  clock now -> (0 <= dt_year now)%Z -> fst (parse_sentence ovf now s p) = Ok r ->
  In (i, o) (decimals r) -> decimal (fld fields i) neg n e -> (decimal_size n e < double_overflow)%R ->
  exists x, o = Some x /\ finite x /\ negative x = neg /\
    nearest (if neg then - decimal_size n e else decimal_size n e)%R x.
Proof.
  intros Hs Hf Hc Hy Hr Hi D S. assert (Hf' : In fff [lit "GGA"; lit "RMC"; lit "GSA"; lit "GLL"; lit "VTG"]) by (cbn [In] in *; tauto).
  pose proof (gnss_ok ovf now s tt fff fields p r _ Hs (names_system_nav tt) Hf' Hc Hy Hr) as R.
  apply (decimal_field (fld fields i)); auto. now apply (report_decimals _ _ _ _ _ _ _ R).
Qed.
Print Assumptions c47_nearest_double.

(** Every value comes from the text: there is none without a number (or special word). *)
Theorem c47_only_numbers ovf now s tt fff fields p r i x :
  gnss_with s tt fff fields -> In fff [lit "GGA"; lit "RMC"; lit "GSA"; lit "VTG"] ->
  clock now -> (0 <= dt_year now)%Z -> fst (parse_sentence ovf now s p) = Ok r ->
  In (i, Some x) (decimals r) -> reads_double (fld fields i) x.
Proof.
  intros Hs Hf Hc Hy Hr Hi. assert (Hf' : In fff [lit "GGA"; lit "RMC"; lit "GSA"; lit "GLL"; lit "VTG"]) by (cbn [In] in *; tauto).
  pose proof (gnss_ok ovf now s tt fff fields p r _ Hs (names_system_nav tt) Hf' Hc Hy Hr) as R.
  apply (report_decimals _ _ _ _ _ _ _ R) in Hi. now inversion Hi.
Qed.
Print Assumptions c47_only_numbers.

Example c47_example :
  (exists d x, fst (parse_sentence true ex_now (lit "$GPVTG,-12.5e1,T") new_parser) = Ok (PsVtg d) /\
     vtg_cog_true d = Some x /\ real_of x = (-125)%R) /\
  decimal (lit "-12.5e1") true 125 0 /\ (decimal_size 125 0 < double_overflow)%R.
Proof.
  split; [|split].
  - eexists _, _. split; [vm_compute; reflexivity|]. split; [reflexivity|].
    cbn [real_of]. match goal with |- context [powerRZ 2 ?e] => assert (powerRZ 2 e = / IZR (2 ^ (- e)))%R as -> end.
    { rewrite powerRZ_bpow. reflexivity. }
    match goal with |- (_ * / IZR ?z = _)%R => let z' := eval vm_compute in z in change z with z' end. lra.
  - apply decimal_intro with (sign := lit "-") (ip := lit "12") (dot := lit ".") (fp := lit "5") (ex := lit "e1") (x := 1%Z);
      [reflexivity|right; right; auto|repeat constructor; discriminate|repeat constructor; discriminate|discriminate|now left| |reflexivity|reflexivity].
    apply (exponent (lit "e") [] false (lit "1")); [now left|now left|].
    split; [discriminate|]. repeat constructor; discriminate.
  - rewrite decimal_size_0. change (Z.of_N 125) with 125%Z. pose proof overflow_large. lra.
Qed.

(** The words for infinity and 'not a number' are accepted, and so are too large numbers. *)
Theorem c47_finite_refuted :
  forall text, In text [lit "inf"; lit "NaN"; lit "-infinity"; lit "1e999"] ->
  exists d x, fst (parse_sentence true ex_now (lit "$GPVTG," ++ text ++ lit ",T") new_parser) = Ok (PsVtg d) /\
    vtg_cog_true d = Some x /\ ~ finite x.
Proof.
  intros t [<-|[<-|[<-|[<-|[]]]]]; eexists _, _; (split; [vm_compute; reflexivity|]; split; [reflexivity|]); exact (fun H => H).
Qed.
Print Assumptions c47_finite_refuted.

(** ** C55 *)

Lemma denotes_two a b : digit a -> digit b -> denotes [a; b] (10 * (a - 48) + (b - 48)).
Proof.
  intros Ha Hb. exists [a; b]. split; [now left|]. split; [|reflexivity]. split; [discriminate|]. repeat constructor; assumption || apply Ha || apply Hb.
Qed.

Lemma denotes_unique f v w : denotes f v -> denotes f w -> v = w.
Proof.
  intros Hv Hw. assert (A : parse_uint (N.max v w) f = Some v) by (apply parse_uint_spec; split; [exact Hv|lia]).
  assert (B : parse_uint (N.max v w) f = Some w) by (apply parse_uint_spec; split; [exact Hw|lia]). congruence.
Qed.

Lemma digit_utf8 l : Forall digit l -> utf8_bytes l = List.length l.
Proof.
  rewrite <- byte_len_spec. induction 1 as [|c l Hc _ IH]; [reflexivity|]. cbn [byte_len List.length]. rewrite IH.
  unfold utf8_len. assert (E : (c <? 128) = true) by (apply N.ltb_lt; unfold digit in Hc; lia). now rewrite E.
Qed.

Lemma six_digits_time f h m s : six_digits f h m s -> time_text f (Some (h, m, s)).
Proof.
  intros (d1 & d2 & d3 & d4 & d5 & d6 & rest & -> & F & -> & -> & ->).
  repeat match goal with H : Forall digit (_ :: _) |- _ => inversion H; clear H; subst end.
  apply time_readable with (a := [d1; d2]) (b := [d3; d4]) (c := [d5; d6]) (rest := rest); try reflexivity;
    try (now apply denotes_two); rewrite digit_utf8 by auto; reflexivity.
Qed.

Lemma report_times now nav fields fff r i o : gnss_report now nav fields fff r -> In (i, o) (times r) ->
  time_stamp now (fld fields i) o.
Proof.
  intros [d H|d H|d H|d H|d H] I; cbn [times In] in I; try contradiction; destruct I as [E|[]]; injection E as <- <-; apply H.
Qed.

Lemma time_text_unique f a b : time_text f a -> time_text f b -> a = b.
Proof. intros Ha Hb. apply time_parts_spec in Ha, Hb. congruence. Qed.

(** A time of day that starts with six digits yields today's date with that time, whatever follows. *)
Theorem c55_time_of_day ovf now s tt fff fields p r i o h mi sec :
  gnss_with s tt fff fields -> In fff [lit "GGA"; lit "GLL"] -> clock now -> (0 <= dt_year now)%Z ->
  fst (parse_sentence ovf now s p) = Ok r -> In (i, o) (times r) -> six_digits (fld fields i) h mi sec ->
  o = Some (mk_datetime (dt_year now) (dt_month now) (dt_day now) h mi sec 0) /\ valid_time h mi sec.
Proof.
  intros Hs Hf Hc Hy Hr Hi D. assert (Hf' : In fff [lit "GGA"; lit "RMC"; lit "GSA"; lit "GLL"; lit "VTG"]) by (cbn [In] in *; tauto).
  pose proof (gnss_ok ovf now s tt fff fields p r _ Hs (names_system_nav tt) Hf' Hc Hy Hr) as R.
  apply (report_times _ _ _ _ _ _ _ R) in Hi. apply six_digits_time in D. destruct Hi as [T|h' m' s' T V].
  - pose proof (time_text_unique _ _ _ T D). discriminate.
  - pose proof (time_text_unique _ _ _ T D) as E. injection E as -> -> ->. auto.
Qed.
Print Assumptions c55_time_of_day.

(** No time stamp: exactly if one of the pairs, up to the first unreadable one, is no number. *)
Theorem c55_no_time ovf now s tt fff fields p r i o :
  gnss_with s tt fff fields -> In fff [lit "GGA"; lit "GLL"] -> clock now -> (0 <= dt_year now)%Z ->
  fst (parse_sentence ovf now s p) = Ok r -> In (i, o) (times r) ->
  (o = None <-> exists a b rest, fld fields i = a ++ b ++ rest /\ utf8_bytes b = 2%nat /\
    (utf8_bytes a = 0 \/ utf8_bytes a = 2 \/ utf8_bytes a = 4)%nat /\ forall v, ~ denotes b v).
Proof.
  intros Hs Hf Hc Hy Hr Hi. assert (Hf' : In fff [lit "GGA"; lit "RMC"; lit "GSA"; lit "GLL"; lit "VTG"]) by (cbn [In] in *; tauto).
  pose proof (gnss_ok ovf now s tt fff fields p r _ Hs (names_system_nav tt) Hf' Hc Hy Hr) as R.
  apply (report_times _ _ _ _ _ _ _ R) in Hi.
  assert (Z : forall l : str, utf8_bytes l = 0%nat -> l = []).
  { intros l Hl. pose proof (utf8_at_least l) as X. rewrite Hl in X. destruct l; [reflexivity|cbn in X; lia]. }
  split.
  - intros ->. inversion Hi as [T|]; subst. inversion T as [|a rest E La Da|a b rest h E La Lb Da Db|a b c rest h m E La Lb Lc Da Db Dc]; subst.
    + exists [], a, rest. repeat split; auto.
    + exists a, b, rest. repeat split; auto.
    + exists (a ++ b), c, rest. rewrite utf8_app, La, Lb, <- app_assoc. repeat split; auto.
  - intros (a & b & rest & E & Lb & La & Db). destruct Hi as [T|h m sec T _]; [reflexivity|]. exfalso.
    inversion T as [a' b' c' rest' h' m' s' E' La' Lb' Lc' Da' Db' Dc'| | |]; subst.
    pose proof (proj2 (slice_first _ a') (ex_intro _ _ (conj E' La'))) as S1.
    pose proof (proj2 (slice_second _ a' b' S1) (ex_intro _ _ (conj E' Lb'))) as S2.
    pose proof (proj2 (slice_third _ a' b' c' S1 S2) (ex_intro _ _ (conj E' Lc'))) as S3.
    assert (S : slice (fld fields i) (utf8_bytes a) (utf8_bytes a + 2) = Some b).
    { apply slice_some; [lia|]. exists a, rest. rewrite !byte_len_spec. repeat split; auto. lia. }
    destruct La as [La|[La|La]]; rewrite La in S.
    + change (slice (fld fields i) 0 2 = Some b) in S. rewrite S1 in S. injection S as ->. now apply Db in Da'.
    + change (slice (fld fields i) 2 4 = Some b) in S. rewrite S2 in S. injection S as ->. now apply Db in Db'.
    + change (slice (fld fields i) 4 6 = Some b) in S. rewrite S3 in S. injection S as ->. now apply Db in Dc'.
Qed.
Print Assumptions c55_no_time.

Example c55_example :
  six_digits (lit "123519.99z") 12 35 19 /\
  (exists d, fst (parse_sentence true ex_now (lit "$GPGGA,123519.99z,,,,,,,,,,,,,") new_parser) = Ok (PsGga d) /\
     gga_timestamp d = Some (mk_datetime 2021 3 14 12 35 19 0)) /\
  (exists d, fst (parse_sentence true ex_now (lit "$GPGGA,12x519,,,,,,,,,,,,,") new_parser) = Ok (PsGga d) /\
     gga_timestamp d = None).
Proof.
  split; [|split].
  - exists 49, 50, 51, 53, 49, 57, (lit ".99z"). split; [reflexivity|]. split; [repeat constructor; discriminate|auto].
  - eexists. split; [vm_compute; reflexivity|]. reflexivity.
  - eexists. split; [vm_compute; reflexivity|]. reflexivity.
Qed.

(** ** C56 *)

Lemma six_digits_pairs f a b c : six_digits f a b c ->
  denotes (pair_at f 0) a /\ denotes (pair_at f 2) b /\ denotes (pair_at f 4) c.
Proof.
  intros (d1 & d2 & d3 & d4 & d5 & d6 & rest & -> & F & -> & -> & ->).
  repeat match goal with H : Forall digit (_ :: _) |- _ => inversion H; clear H; subst end.
  unfold pair_at. cbn [app skipn firstn]. repeat split; now apply denotes_two.
Qed.

(** Date and time of RMC: exactly that day and time in the century of the clock. *)
Theorem c56_date_and_time ovf now s tt fields p d dd mo yy h mi sec :
  gnss_with s tt (lit "RMC") fields -> (0 <= dt_year now)%Z ->
  fst (parse_sentence ovf now s p) = Ok (PsRmc d) ->
  six_digits (fld fields 8) dd mo yy -> six_digits (fld fields 0) h mi sec ->
  exists year, rmc_timestamp d = Some (mk_datetime year mo dd h mi sec 0) /\
    (year / 100 = dt_year now / 100)%Z /\ (year mod 100)%Z = Z.of_N yy /\
    valid_date year mo dd /\ valid_time h mi sec.
Proof.
  intros Hs Hy Hr Dd Dt. destruct (c40_rmc ovf now s tt _ fields p Hs (names_system_nav tt) Hy) as (_ & H & _).
  apply H in Hr as (d' & E & R). injection E as <-. destruct R as (_ & R & _).
  assert (Y : yy <= 99).
  { destruct Dd as (d1 & d2 & d3 & d4 & d5 & d6 & rest & _ & F & _ & _ & ->).
    repeat match goal with H : Forall digit (_ :: _) |- _ => inversion H; clear H; subst end. unfold digit in *. lia. }
  apply six_digits_pairs in Dd as (A1 & A2 & A3). apply six_digits_pairs in Dt as (B1 & B2 & B3).
  assert (S3 : signed_number (pair_at (fld fields 8) 4) (Z.of_N yy)) by (left; eauto).
  exists (century now + Z.of_N yy)%Z.
  destruct R as [N|dd' mo' y' h' mi' s' (C1 & C2 & C3 & C4 & C5 & C6) V1 V2 V3].
  - exfalso. apply (N dd mo (Z.of_N yy) h mi sec). repeat split; assumption.
  - pose proof (denotes_unique _ _ _ A1 C1) as <-. pose proof (denotes_unique _ _ _ A2 C2) as <-.
    pose proof (denotes_unique _ _ _ B1 C4) as <-. pose proof (denotes_unique _ _ _ B2 C5) as <-.
    pose proof (denotes_unique _ _ _ B3 C6) as <-.
    assert (Z.of_N yy = y') as <-.
    { apply parse_i32_short in S3, C3; try apply pair_at_length. congruence. }
    split; [reflexivity|]. unfold century.
    assert (Q : ((dt_year now / 100 * 100 + Z.of_N yy) / 100 = dt_year now / 100)%Z)
      by (rewrite Z.div_add_l by lia; rewrite (Z.div_small (Z.of_N yy)) by lia; lia).
    split; [exact Q|]. split; [|split; [exact V2|exact V3]].
    rewrite Z.mod_eq by lia. rewrite Q. lia.
Qed.
Print Assumptions c56_date_and_time.

Example c56_example :
  six_digits (lit "191194") 19 11 94 /\ six_digits (lit "225446.33") 22 54 46 /\
  (exists fields, gnss_with ex_rmc_fields (lit "GN") (lit "RMC") fields /\ fld fields 8 = lit "191194" /\ fld fields 0 = lit "225446.33") /\
  exists d, fst (parse_sentence true ex_now ex_rmc_fields new_parser) = Ok (PsRmc d) /\
     rmc_timestamp d = Some (mk_datetime 2094 11 19 22 54 46 0).
Proof.
  split; [|split; [|split]].
  - exists 49, 57, 49, 49, 57, 52, []. split; [reflexivity|]. split; [repeat constructor; discriminate|auto].
  - exists 50, 50, 53, 52, 52, 54, (lit ".33"). split; [reflexivity|]. split; [repeat constructor; discriminate|auto].
  - eexists. split; [gnss|]. split; reflexivity.
  - eexists. split; [vm_compute; reflexivity|]. reflexivity.
Qed.

(** ** C57 *)

Lemma number_ext {A} (parse : str -> option A) l l' i : field l i = field l' i -> number parse l i = number parse l' i.
Proof. intros H. unfold number, pick_number_field. now rewrite H. Qed.
Lemma number_lenient_ext {A} (parse : str -> option A) l l' i : field l i = field l' i ->
  number_lenient parse l i = number_lenient parse l' i.
Proof. intros H. unfold number_lenient, pick_number_field. now rewrite H. Qed.

Lemma gsa_prns_ext l l' nums : (forall i, field l i = field l' i) -> gsa_prns l nums = gsa_prns l' nums.
Proof.
  intros H. induction nums as [|i nums IH]; [reflexivity|]. cbn [gsa_prns]. rewrite (H i), IH, (number_ext parse_u8 l l' i (H i)). reflexivity.
Qed.

Lemma handlers_ext now body body' nav fff r :
  (forall i, field (split_on 44 body) i = field (split_on 44 body') i) ->
  plain_gnss now body nav fff r -> plain_gnss now body' nav fff r.
Proof.
  intros H.
  assert (NE : forall {A} (parse : str -> option A) i, number parse (split_on 44 body) i = number parse (split_on 44 body') i)
    by (intros; now apply number_ext).
  assert (LE : forall {A} (parse : str -> option A) i, number_lenient parse (split_on 44 body) i = number_lenient parse (split_on 44 body') i)
    by (intros; now apply number_lenient_ext).
  intros [ | | | | ].
  - assert (E : handle_gga now body nav = handle_gga now body' nav).
    { unfold handle_gga. cbv zeta. now rewrite !H, !NE. } rewrite E. constructor.
  - assert (E : handle_rmc now body nav = handle_rmc now body' nav).
    { unfold handle_rmc, rmc_variation_field. cbv zeta. now rewrite !H, !NE. } rewrite E. constructor.
  - assert (E : handle_gsa body nav = handle_gsa body' nav).
    { unfold handle_gsa. cbv zeta. now rewrite !H, !NE, (gsa_prns_ext _ _ (seq 3 12) H). } rewrite E. constructor.
  - assert (E : handle_vtg body nav = handle_vtg body' nav).
    { unfold handle_vtg. cbv zeta. now rewrite !H, !LE. } rewrite E. constructor.
  - assert (E : handle_gll now body nav = handle_gll now body' nav).
    { unfold handle_gll. cbv zeta. now rewrite !H. } rewrite E. constructor.
Qed.

(** Two sentences of the same type and talker whose fields agree, a missing field being empty, have
    the same result, whatever the states of the parsers. *)
Theorem c57_missing_fields ovf now s s' tt fff fields fields' p p' :
  gnss_with s tt fff fields -> gnss_with s' tt fff fields' ->
  In fff [lit "GGA"; lit "RMC"; lit "GSA"; lit "GLL"; lit "VTG"] ->
  (forall i, fld fields i = fld fields' i) ->
  fst (parse_sentence ovf now s p) = fst (parse_sentence ovf now s' p').
Proof.
  intros Hs Hs' Hf He.
  destruct (gnss_with_body _ _ _ _ Hs (gnss_with_plain _ _ _ _ Hs)) as (body & given & _ & _ & Hb & Hr).
  destruct (gnss_with_body _ _ _ _ Hs' (gnss_with_plain _ _ _ _ Hs')) as (body' & given' & _ & _ & Hb' & Hr').
  assert (H : forall i, field (split_on 44 body) i = field (split_on 44 body') i).
  { intros i. rewrite Hb, Hb'. destruct i as [|i]; [reflexivity|apply (He i)]. }
  assert (P : exists r, plain_gnss now body (nav_of_talker tt) fff r).
  { cbn [In] in Hf. destruct Hf as [<-|[<-|[<-|[<-|[<-|[]]]]]]; eexists; constructor. }
  destruct P as (r & P). rewrite (Hr ovf now p r P). pose proof (handlers_ext _ _ _ _ _ _ H P) as P'.
  now rewrite (Hr' ovf now p' r P').
Qed.
Print Assumptions c57_missing_fields.

(** In particular, appended commas change nothing. *)
Theorem c57_trailing_commas ovf now s s' tt fff fields k p p' :
  gnss_with s tt fff fields -> gnss_with s' tt fff (fields ++ repeat [] k) ->
  In fff [lit "GGA"; lit "RMC"; lit "GSA"; lit "GLL"; lit "VTG"] ->
  fst (parse_sentence ovf now s p) = fst (parse_sentence ovf now s' p').
Proof.
  intros Hs Hs' Hf. apply (c57_missing_fields ovf now s s' tt fff fields _ p p' Hs Hs' Hf).
  intros i. unfold fld. destruct (Nat.lt_ge_cases i (List.length fields)) as [L|L].
  - now rewrite app_nth1.
  - rewrite app_nth2 by exact L. rewrite nth_overflow by exact L. symmetry.
    generalize (i - List.length fields)%nat. clear. induction k as [|k IH]; intros [|j]; cbn; auto.
Qed.
Print Assumptions c57_trailing_commas.

Example c57_example :
  (exists fields, gnss_with (lit "$GPGSA,A,2,11") (lit "GP") (lit "GSA") fields /\
     gnss_with (lit "$GPGSA,A,2,11,,,") (lit "GP") (lit "GSA") (fields ++ repeat [] 3)) /\
  exists r, fst (parse_sentence true ex_now (lit "$GPGSA,A,2,11") new_parser) = Ok r /\
    fst (parse_sentence true ex_now (lit "$GPGSA,A,2,11,,,") new_parser) = Ok r.
Proof.
  split.
  - exists [lit "A"; lit "2"; lit "11"]. split; gnss.
  - eexists. split; vm_compute; reflexivity.
Qed.

(** ** C58 *)

Lemma report_modes now nav fields fff r i o : gnss_report now nav fields fff r -> In (i, o) (modes r) ->
  lenient_value (word faa_modes) (fld fields i) o.
Proof.
  intros [d H|d H|d H|d H|d H] I; cbn [modes In] in I; try contradiction; destruct I as [E|[]]; injection E as <- <-; apply H.
Qed.

(** The mode is the one whose letter is in the field, and there is none for any other text. *)
Theorem c58_modes ovf now s tt fff fields p r i o :
  gnss_with s tt fff fields -> In fff [lit "GLL"; lit "VTG"] -> clock now -> (0 <= dt_year now)%Z ->
  fst (parse_sentence ovf now s p) = Ok r -> In (i, o) (modes r) ->
  (forall m, o = Some m -> FaaMode_display m = fld fields i) /\
  (In (fld fields i) [lit "A"; lit "D"; lit "E"; lit "N"] <-> o <> None).
Proof.
  intros Hs Hf Hc Hy Hr Hi. assert (Hf' : In fff [lit "GGA"; lit "RMC"; lit "GSA"; lit "GLL"; lit "VTG"]) by (cbn [In] in *; tauto).
  pose proof (gnss_ok ovf now s tt fff fields p r _ Hs (names_system_nav tt) Hf' Hc Hy Hr) as R.
  apply (report_modes _ _ _ _ _ _ _ R) in Hi. destruct Hi as [H|m N W].
  - split; [discriminate|]. split; [|congruence]. intros I. exfalso.
    destruct H as [E|H]; [rewrite E in I; cbn [In] in I; decompose [or] I; try discriminate; contradiction|].
    cbn [In] in I. decompose [or] I; try contradiction.
    + apply (H FaaAutonomous). unfold word, faa_modes. cbn [In]. rewrite <- H0. auto.
    + apply (H FaaDifferential). unfold word, faa_modes. cbn [In]. rewrite <- H1. auto.
    + apply (H FaaEstimated). unfold word, faa_modes. cbn [In]. rewrite <- H0. auto.
    + apply (H FaaNotValid). unfold word, faa_modes. cbn [In]. rewrite <- H1. auto.
  - unfold word, faa_modes in W. cbn [In] in W. split.
    + intros m' E. injection E as <-. decompose [or] W; try contradiction; match goal with H : (_, _) = _ |- _ => injection H as <- <- end; reflexivity.
    + split; [discriminate|]. intros _. cbn [In]. decompose [or] W; try contradiction; match goal with H : (_, _) = _ |- _ => injection H as <- _ end; auto.
Qed.
Print Assumptions c58_modes.

Example c58_example :
  (exists d, fst (parse_sentence true ex_now (lit "$GPVTG,,T,,M,,N,,K,E") new_parser) = Ok (PsVtg d) /\
     modes (PsVtg d) = [(8%nat, Some FaaEstimated)]) /\
  (exists d, fst (parse_sentence true ex_now (lit "$GPVTG,,T,,M,,N,,K,S") new_parser) = Ok (PsVtg d) /\
     modes (PsVtg d) = [(8%nat, None)]).
Proof. split; eexists; (split; [vm_compute; reflexivity|reflexivity]). Qed.
