(** Further examples for C67-C112. *)
From stdpp Require Import gmap.
From Coq Require Import List NArith ZArith Bool String Lia Reals Floats.SpecFloat.
From Verif Require Import Base Str F64 Chrono Types Util AisMod Vdm Gnss Parser Display Cost
  SpecText SpecResult SpecAis SpecTime SpecState SpecGnss SpecMerge SpecReal SpecMeasure SpecFields SpecDisplay SpecMemory SpecTalker
  SpecCost SpecMirror SpecColumns SpecSender CompleteFacts PropComplete
  StrFacts FrontFacts CallFacts ResultFacts BitFacts VdmFacts LayoutFacts StateFacts RunFacts
  PropFront PropBits PropAis PropState PropStatic PropGsv PropMeasure PropFields PropTables PropDisplay PropMemory PropTalker PropCost
  PropMirror PropColumns PropSender PropSenderGsv Cases1 Cases2.
Import ListNotations.
Open Scope N_scope.
Local Opaque f64_div f64_mul f64_of_Z f64_of_dec.

(** ** C67, C69 *)

Example c67_quality_case ovf p d :
  fst (parse_sentence ovf ex_now (lit "$QQGGA,123519,,,,,4,,,,M,,M,,") p) = Ok (PsGga d) ->
  GgaQualityIndicator_display (gga_quality d) = lit "Real-Time Kinematic".
Proof.
  intros H. refine (c67_quality_names ovf ex_now (lit "$QQGGA,123519,,,,,4,,,,M,,M,,") (lit "QQ")
    [lit "123519"; []; []; []; []; lit "4"; []; []; []; lit "M"; []; lit "M"; []; []] p d 4 _ _ H (dec_denotes 4)); [gnss|].
  vm_compute. intuition discriminate.
Qed.

Example c67_fix_case ovf p d m :
  fst (parse_sentence ovf ex_now (lit "$GPGSA,A,2,11") p) = Ok (PsGsa d) -> gsa_mode2_3d d = Some m ->
  In (lit "2", GsaFixMode_display m) fix_names.
Proof.
  intros H M. refine (c67_fix_names ovf ex_now (lit "$GPGSA,A,2,11") (lit "GP") [lit "A"; lit "2"; lit "11"] p d m _ H M). gnss.
Qed.

(** A base station on Greenland: 60 degrees 0.5 minutes north, 43 degrees west. *)
Definition ex_base_bits : list bool := layout_bits
  [U 6 4; U 2 0; U 30 3311000; U 14 2024; U 4 2; U 5 29; U 5 12; U 6 30; U 6 59; F false; I 28 (-25800000); I 27 36005000;
   U 4 1; U 10 0; F false; U 19 0].
Definition ex_base_sentence : str := encode_sentence (lit "BS") (lit "VDM") (lit "A") ex_base_bits.
Lemma ex_base_fragment : one_fragment ex_base_sentence (lit "BS") (lit "VDM") (armor ex_base_bits).
Proof. encoded. Qed.

Example c69_ais_position_case : exists r p' lat lon,
  parse_sentence true ex_now ex_base_sentence new_parser = (Ok r, p') /\
  LatLon_latitude r = Some lat /\ LatLon_longitude r = Some lon /\
  coordinate latitude_na 36005000 lat /\ coordinate longitude_na (-25800000) lon.
Proof.
  assert (R : exists d, parse_sentence true ex_now ex_base_sentence new_parser = (Ok (PsBaseStationReport d), new_parser))
    by (eexists; vm_compute; reflexivity).
  destruct R as (d & R).
  destruct (c69_ais_position _ _ _ _ _ _ _ 4 _ _ _ _ ex_base_fragment eq_refl eq_refl R) as (lat & lon & H1 & H2 & H3 & H4).
  exists (PsBaseStationReport d), new_parser, lat, lon.
  replace (signed_value (window ex_base_bits 107 27)) with 36005000%Z in H3 by (vm_compute; reflexivity).
  replace (signed_value (window ex_base_bits 79 28)) with (-25800000)%Z in H4 by (vm_compute; reflexivity).
  split; [exact R|]. split; [exact H1|]. split; [exact H2|]. split; [exact H3|exact H4].
Qed.

Definition ex_inquiry_bits : list bool := layout_bits [U 6 10; U 2 0; U 30 366814480; U 2 0; U 30 366832740; U 2 0].
Definition ex_inquiry_sentence : str := encode_sentence (lit "AI") (lit "VDM") (lit "A") ex_inquiry_bits.
Lemma ex_inquiry_fragment : one_fragment ex_inquiry_sentence (lit "AI") (lit "VDM") (armor ex_inquiry_bits).
Proof. encoded. Qed.

Example c69_no_position_case : exists d, parse_sentence true ex_now ex_inquiry_sentence new_parser = (Ok (PsUtcDateInquiry d), new_parser) /\
  forall x, LatLon_latitude (PsUtcDateInquiry d) <> Some (Some x).
Proof.
  assert (R : exists d, parse_sentence true ex_now ex_inquiry_sentence new_parser = (Ok (PsUtcDateInquiry d), new_parser))
    by (eexists; vm_compute; reflexivity).
  destruct R as (d & R). exists d. split; [exact R|]. intros x.
  exact (proj1 (proj1 (c69_no_position _ _ _ _ _ _ _ 10 _ _ ex_inquiry_fragment eq_refl eq_refl ltac:(discriminate) R) x)).
Qed.

(** ** C87, C91, C92 *)

Lemma ex_parts_vessel : static_data_from true [271041815] [(ex_now, ex_part_a); (ex_now, ex_part_b); (ex_now, ex_part_a)].
Proof.
  assert (A : one_fragment ex_part_a (lit "AI") (lit "VDM") (lit "H42O55i18tMET00000000000000"))
    by (apply (check_one_fragment _ _ _ (lit "A") _ [lit "2"]); apply check_vdm; [vm_compute; auto|reflexivity]).
  assert (B : one_fragment ex_part_b (lit "AI") (lit "VDM") (lit "H42O55lti4hhhilD3nink000?050"))
    by (apply (check_one_fragment _ _ _ (lit "A") _ [lit "0"]); apply check_vdm; [vm_compute; auto|reflexivity]).
  intros h1 now s h2 tt fff payload E C _. left.
  assert (S : s = ex_part_a \/ s = ex_part_b).
  { destruct h1 as [|x1 [|x2 [|x3 h1]]]; try (injection E as ? ? ?; subst; auto); try (injection E; intros; subst; auto).
    all: try discriminate. destruct h1; discriminate. }
  destruct S as [-> | ->].
  - destruct (completes_unique _ _ _ _ _ _ _ _ C (complete_one _ _ _ _ _ A)) as (_ & _ & ->). reflexivity.
  - destruct (completes_unique _ _ _ _ _ _ _ _ C (complete_one _ _ _ _ _ B)) as (_ & _ & ->). reflexivity.
Qed.

Example c87_vessels_case :
  (vsds_count (after true [(ex_now, ex_part_a); (ex_now, ex_part_b); (ex_now, ex_part_a)] new_parser) <= 1)%nat /\
  vsds_count (after true [(ex_now, ex_part_a); (ex_now, ex_part_b); (ex_now, ex_part_a)] new_parser) = 1%nat.
Proof. split; [exact (c87_vessels _ _ _ ex_parts_vessel)|vm_compute; reflexivity]. Qed.

Example c91_talker_case ovf p :
  snd (parse_sentence ovf ex_now (lit "!BSVDM,1,1,,A,H42O55i18tMET00000000000000,2") p) = snd (parse_sentence ovf ex_now ex_part_a p).
Proof.
  refine (proj1 (c91_talker ovf ex_now ex_part_a _ (lit "AI") (lit "BS") (lit "VDM") _ p _ _)).
  - apply check_vdm; [vm_compute; auto|reflexivity].
  - apply check_vdm; [vm_compute; auto|reflexivity].
Qed.

Example c92_group_case ovf p : 3 <= parse_steps ovf ex_gsv3 p.
Proof.
  apply (c92_group _ _ _ (lit "GP") 3 3); [|reflexivity].
  pose proof (proj2 ex_gsv_group) as F. unfold ex_gsv_calls in F. apply Forall_cons_1 in F as [(A & B & C) _]. cbn [fst snd] in A, B, C.
  exists (ex_gsv_fields 3). auto.
Qed.

(** ** C111: the second page arrives first. *)

Example c111_gsv_case ovf : exists last,
  results ovf [(ex_now, written_sentence (lit "GP") (lit "GSV") (page_fields ex_seen 2));
               (ex_now, written_sentence (lit "GP") (lit "GSV") (page_fields ex_seen 1))] new_parser =
  [Ok PsIncomplete; Ok (PsGsv last)] /\ List.length last = 5%nat.
Proof.
  destruct c111_gsv_example as (S & N & G & _).
  exists (map (satellite_entry NavGps) ex_seen). split; [|reflexivity].
  pose proof (c111_gsv ovf (lit "GP") NavGps ex_seen
    [(2, (ex_now, written_sentence (lit "GP") (lit "GSV") (page_fields ex_seen 2)));
     (1, (ex_now, written_sentence (lit "GP") (lit "GSV") (page_fields ex_seen 1)))] new_parser) as T.
  cbn [map fst snd] in T.
  refine (proj1 (T eq_refl _ _ _ S _ _ _)).
  - now apply plain_lit_dec.
  - vm_compute. auto.
  - cbn. lia.
  - rewrite N. exact G.
  - rewrite N. change (numbers_to 2) with [1; 2]. apply Permutation.perm_swap.
  - constructor; [exact eq_refl|]. constructor; [exact eq_refl|]. constructor.
Qed.
