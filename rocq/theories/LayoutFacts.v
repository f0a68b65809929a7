(** Reading back the fields of a layout. *)
From Coq Require Import List NArith ZArith Bool String Lia ZifyBool ZifyNat ZifyN.
From Verif Require Import Base Str F64 Chrono Types Util AisMod Vdm Gnss Parser
  SpecText SpecResult SpecAis SpecTime StrFacts FrontFacts CallFacts ResultFacts BitFacts VdmFacts.
Import ListNotations.
Open Scope N_scope.

(** ** Fields *)

Definition well_sized (l : layout) : Prop := Forall (fun f => List.length (snd f) = fst f) l.

Lemma sized_U w v : List.length (snd (U w v)) = fst (U w v).
Proof. apply be_bits_length. Qed.
Lemma sized_I w z : List.length (snd (I w z)) = fst (I w z).
Proof. apply be_bits_length. Qed.
Lemma sized_F b : List.length (snd (F b)) = fst (F b).
Proof. reflexivity. Qed.
Lemma sized_T n text codes : text_field n text codes -> List.length (snd (T n codes)) = fst (T n codes).
Proof. intros (H & _). cbn [T snd fst]. rewrite flat_map_bits_length. now rewrite H. Qed.

Ltac sized :=
  unfold well_sized;
  repeat (apply Forall_cons; [first [apply sized_U | apply sized_I | apply sized_F | eapply sized_T; eassumption]|]);
  apply Forall_nil.

Lemma lay_u l k w v i rest :
  well_sized l -> nth_error l k = Some (U w v) -> list_sum (map fst (firstn k l)) = i -> (w <= 64)%nat ->
  fits (N.of_nat w) v -> pick_u64 (layout_bits l ++ rest) i w = v.
Proof.
  intros Hl Hk Hi Hw Hv. rewrite pick_u64_spec by exact Hw.
  unfold U in Hk. rewrite (layout_window l k w _ i rest Hl Hk Hi). now apply be_value_fits.
Qed.

Lemma lay_i l k w z i rest :
  well_sized l -> nth_error l k = Some (I w z) -> list_sum (map fst (firstn k l)) = i ->
  (0 < w <= 64)%nat ->
  fits_signed (Z.of_nat w) z -> pick_i64 (layout_bits l ++ rest) i w = z.
Proof.
  intros Hl Hk Hi Hw Hv. destruct w as [|w]; [lia|]. rewrite pick_i64_spec by lia.
  unfold I in Hk. rewrite (layout_window l k _ _ i rest Hl Hk Hi). now apply signed_value_twos.
Qed.

Lemma lay_f l k b i rest :
  well_sized l -> nth_error l k = Some (F b) -> list_sum (map fst (firstn k l)) = i ->
  pick_u64 (layout_bits l ++ rest) i 1 = N.b2n b.
Proof.
  intros Hl Hk Hi. rewrite pick_u64_spec by lia. unfold F in Hk.
  rewrite (layout_window l k _ _ i rest Hl Hk Hi). now destruct b.
Qed.

Lemma lay_t {E} l k n text codes i rest :
  well_sized l -> nth_error l k = Some (T n codes) -> list_sum (map fst (firstn k l)) = i ->
  text_field n text codes -> @pick_string E (layout_bits l ++ rest) i n = Ok text.
Proof.
  intros Hl Hk Hi Ht. apply (pick_string_field _ _ _ _ codes Ht).
  unfold T in Hk. exact (layout_window l k _ _ i rest Hl Hk Hi).
Qed.

Lemma layout_bits_length l : well_sized l -> List.length (layout_bits l) = list_sum (map fst l).
Proof.
  induction 1 as [|f l Hf _ IH]; [reflexivity|]. unfold layout_bits in *. cbn [flat_map map list_sum fold_right].
  rewrite app_length, Hf, IH. reflexivity.
Qed.

Lemma lay_rest {E} l n text codes i rest :
  well_sized l -> list_sum (map fst l) = i -> window rest 0 (6 * n) = flat_map (be_bits 6) codes ->
  text_field n text codes -> @pick_string E (layout_bits l ++ rest) i n = Ok text.
Proof.
  intros Hl Hi Hw Ht. apply (pick_string_field _ _ _ _ codes Ht). rewrite <- Hw, <- Hi.
  rewrite <- (layout_bits_length l Hl), <- (Nat.add_0_r (List.length _)). apply window_app_r.
Qed.

(** ** Casts *)

Lemma small_u8 w v : fits w v -> w <= 8 -> as_u8 v = v.
Proof.
  unfold fits, as_u8. intros H Hw. apply N.mod_small. eapply N.lt_le_trans; [exact H|].
  change 256 with (2 ^ 8). apply N.pow_le_mono_r; lia.
Qed.
Lemma small_u16 w v : fits w v -> w <= 16 -> as_u16 v = v.
Proof.
  unfold fits, as_u16. intros H Hw. apply N.mod_small. eapply N.lt_le_trans; [exact H|].
  change 65536 with (2 ^ 16). apply N.pow_le_mono_r; lia.
Qed.
Lemma small_u32 w v : fits w v -> w <= 32 -> as_u32 v = v.
Proof.
  unfold fits, as_u32. intros H Hw. apply N.mod_small. eapply N.lt_le_trans; [exact H|].
  change 4294967296 with (2 ^ 32). apply N.pow_le_mono_r; lia.
Qed.
Lemma small_i32 w z : fits_signed w z -> (1 <= w <= 32)%Z -> as_i32 z = z.
Proof.
  unfold fits_signed, as_i32. intros H Hw. cbv zeta.
  assert (Hp : (2 ^ (w - 1) <= 2147483648)%Z).
  { change 2147483648%Z with (2 ^ 31)%Z. apply Z.pow_le_mono_r; lia. }
  destruct (Z.ltb_spec z 0).
  - rewrite <- (Z.mod_unique z 4294967296 (-1) (z + 4294967296)) by lia.
    destruct (Z.ltb_spec (z + 4294967296) 2147483648); lia.
  - rewrite Z.mod_small by lia. destruct (Z.ltb_spec z 2147483648); lia.
Qed.
Lemma small_i32_N w v : fits w v -> w <= 31 -> as_i32 (Z.of_N v) = Z.of_N v.
Proof.
  intros H Hw. apply (small_i32 32); [|lia]. unfold fits, fits_signed in *.
  assert (v < 2 ^ 31) by (eapply N.lt_le_trans; [exact H|]; apply N.pow_le_mono_r; lia).
  change (2 ^ (32 - 1))%Z with (Z.of_N (2 ^ 31)). lia.
Qed.

(** ** Values *)

Lemma flag_b2n b : negb (N.b2n b =? 0) = b.
Proof. now destruct b. Qed.
Lemma flag_b2n_0 b : (N.b2n b =? 0) = negb b.
Proof. now destruct b. Qed.

Lemma coord_value bv i n na scale z :
  pick_i64 bv i n = z -> as_i32 z = z -> coord bv i n na scale =
  if (z =? na)%Z then None else Some (f64_div (f64_of_Z z) (f64_of_Z scale)).
Proof. unfold coord. cbv zeta. intros -> ->. destruct (z =? na)%Z; reflexivity. Qed.

Lemma sog_value bv i v :
  pick_u64 bv i 10 = v -> fits 10 v -> sog_at bv i = tenths 1023 v.
Proof.
  unfold sog_at, tenths, fits. cbv zeta. intros -> H. change (2 ^ 10) with 1024 in H.
  destruct (N.ltb_spec v 1023), (N.eqb_spec v 1023); try lia; reflexivity.
Qed.

Lemma cog_value bv i v : pick_u64 bv i 12 = v -> cog_at bv i = tenths 3600 v.
Proof. unfold cog_at, tenths. cbv zeta. intros ->. change 0xE10 with 3600. now destruct (v =? 3600). Qed.

Lemma heading_value bv i v : pick_u64 bv i 9 = v -> heading_at bv i = whole 511 v.
Proof. unfold heading_at, whole. cbv zeta. intros ->. now destruct (v =? 511). Qed.

(** Finite sweeps. *)
Lemma sweep (n : nat) (P : N -> Prop) (check : N -> bool) :
  (forall v, check v = true -> P v) ->
  forallb check (map N.of_nat (seq 0 n)) = true -> forall v, v < N.of_nat n -> P v.
Proof.
  intros Hc Hf v Hv. apply Hc. rewrite forallb_forall in Hf. apply Hf. apply in_map_iff.
  exists (N.to_nat v). split; [apply N2Nat.id|]. apply in_seq. lia.
Qed.

Lemma sweep_eq {A} (eqb : A -> A -> bool) (n : nat) (f g : N -> A) :
  (forall a b, eqb a b = true -> a = b) ->
  forallb (fun v => eqb (f v) (g v)) (map N.of_nat (seq 0 n)) = true ->
  forall v, v < N.of_nat n -> f v = g v.
Proof. intros He. apply sweep. intros v. apply He. Qed.

Scheme Equality for NavigationStatus.
Scheme Equality for PositionFixType.
Scheme Equality for NavAidType.
Scheme Equality for PositioningSystemMeta.
Scheme Equality for ShipType.
Scheme Equality for CargoType.

Lemma nav_status_value v : fits 4 v ->
  NavigationStatus_new v = nth (N.to_nat v) navigation_statuses NsNotDefined.
Proof.
  intros H. revert v H.
  apply (sweep_eq NavigationStatus_beq 16); [exact internal_NavigationStatus_dec_bl|reflexivity].
Qed.

Lemma fix_value v : fits 4 v -> PositionFixType_new v = fix_type v.
Proof.
  intros H. revert v H.
  apply (sweep_eq PositionFixType_beq 16); [exact internal_PositionFixType_dec_bl|reflexivity].
Qed.

Lemma aid_value v : fits 5 v ->
  unwrap_or (ok_value (NavAidType_new v)) NaNotSpecified = nth (N.to_nat v) nav_aid_types NaNotSpecified.
Proof. intros H. revert v H. apply (sweep_eq NavAidType_beq 32); [exact internal_NavAidType_dec_bl|reflexivity]. Qed.

Lemma meta_value v : fits 6 v -> positioning_meta v = positioning_state v.
Proof.
  intros H. revert v H. apply (sweep_eq (fun a b => match a, b with
     | Some x, Some y => PositioningSystemMeta_beq x y | None, None => true | _, _ => false end) 64);
    [|reflexivity].
  intros [a|] [b|]; try discriminate; [|reflexivity]. intros E. f_equal.
  now apply internal_PositioningSystemMeta_dec_bl.
Qed.

Lemma manoeuvre_value v : special_manoeuvre_value v = reported_manoeuvre v.
Proof. destruct v as [|[v|[v|v|]|]]; try reflexivity; destruct v; reflexivity. Qed.

Lemma ship_value v : fits 8 v -> ShipType_new v = reported_ship_type v.
Proof. intros H. revert v H. apply (sweep_eq ShipType_beq 256); [exact internal_ShipType_dec_bl|vm_compute; reflexivity]. Qed.

Lemma cargo_value v : fits 8 v -> CargoType_new v = cargo_type v.
Proof. intros H. revert v H. apply (sweep_eq CargoType_beq 256); [exact internal_CargoType_dec_bl|vm_compute; reflexivity]. Qed.

Lemma turn_value z : rot_value z = reported_turn z.
Proof.
  unfold rot_value, reported_turn. cbv zeta.
  destruct (Z.leb_spec (-126) z), (Z.ltb_spec z 0), (Z.leb_spec 0 z), (Z.leb_spec z 126), (Z.leb_spec (Z.abs z) 126);
    cbn [andb]; try lia; try reflexivity.
  - rewrite Z.abs_neq by lia. reflexivity.
  - rewrite Z.abs_eq by lia. reflexivity.
Qed.

Lemma direction_value z : fits_signed 8 z -> rot_direction_value z = turn_direction z.
Proof.
  unfold rot_direction_value, turn_direction, fits_signed. change (2 ^ (8 - 1))%Z with 128%Z. intros H.
  destruct (Z.eqb_spec z (-128)); [reflexivity|].
  destruct (Z.leb_spec z (-2)), (Z.ltb_spec z 2), (Z.leb_spec (Z.abs z) 1), (Z.ltb_spec z 128);
    try lia; try reflexivity; f_equal; lia.
Qed.

Lemma position_fix_value bv i v : pick_u64 bv i 4 = v -> fits 4 v -> position_fix_at bv i = fix_report v.
Proof.
  intros E H. unfold position_fix_at, fix_report. cbv zeta. rewrite E, (small_u8 4 v H) by lia.
  destruct (v =? 0); [reflexivity|]. now rewrite fix_value.
Qed.

(** ** Dates *)

Lemma leap_year_spec y : is_leap y = true <-> leap_year y.
Proof.
  unfold is_leap, leap_year. rewrite <- !Z.mod_divide by lia. lia.
Qed.

Lemma valid_ymd_spec y m d : year_in_range y -> valid_date y m d -> valid_ymd y m d = true.
Proof.
  unfold valid_ymd, valid_date, year_in_range. intros Hy (Hm & Hd & H30 & H28).
  assert (Hl : d <= days_in_month y m).
  { assert (Hc : m = 1 \/ m = 2 \/ m = 3 \/ m = 4 \/ m = 5 \/ m = 6 \/ m = 7 \/ m = 8 \/ m = 9 \/ m = 10
                 \/ m = 11 \/ m = 12) by lia.
    repeat destruct Hc as [-> |Hc]; try subst m; cbn [days_in_month]; try lia.
    destruct (H28 eq_refl) as [H|[-> H]]; [destruct (is_leap y); lia|].
    apply leap_year_spec in H. rewrite H. lia. }
  lia.
Qed.

Lemma valid_ymd_inv y m d : valid_ymd y m d = true -> year_in_range y /\ valid_date y m d.
Proof.
  unfold valid_ymd, valid_date, year_in_range. intros H.
  assert (Hl : d <= days_in_month y m) by lia. assert (Hm : 1 <= m <= 12) by lia.
  split; [lia|]. split; [exact Hm|].
  assert (Hc : m = 1 \/ m = 2 \/ m = 3 \/ m = 4 \/ m = 5 \/ m = 6 \/ m = 7 \/ m = 8 \/ m = 9 \/ m = 10
                 \/ m = 11 \/ m = 12) by lia.
  destruct (is_leap y) eqn:E;
  repeat destruct Hc as [-> |Hc]; try subst m; cbn [days_in_month] in Hl; try rewrite E in Hl; try lia.
  - apply leap_year_spec in E. split; [lia|]. split; [lia|]. intros _.
    destruct (N.eq_dec d 29); [right; auto|left; lia].
Qed.

Lemma valid_hms_spec h m s : valid_hms h m s = true <-> valid_time h m s.
Proof. unfold valid_hms, valid_time. lia. Qed.

Lemma ymd_and_hms_ok {E} y m d h mi s :
  year_in_range y -> valid_date y m d -> valid_time h mi s ->
  @ymd_and_hms E y m d h mi s = Ok (mk_datetime y m d h mi s 0).
Proof.
  intros Hy Hd Ht. unfold ymd_and_hms. rewrite valid_ymd_spec by assumption.
  apply valid_hms_spec in Ht. now rewrite Ht.
Qed.

Lemma ymd_and_hms_cases {E} y m d h mi s :
  (@ymd_and_hms E y m d h mi s = Ok (mk_datetime y m d h mi s 0) /\
   year_in_range y /\ valid_date y m d /\ valid_time h mi s) \/
  (@ymd_and_hms E y m d h mi s = Panic /\ ~ (year_in_range y /\ valid_date y m d /\ valid_time h mi s)).
Proof.
  unfold ymd_and_hms. destruct (valid_ymd y m d) eqn:E1; [destruct (valid_hms h mi s) eqn:E2|].
  - left. apply valid_ymd_inv in E1 as [? ?]. apply valid_hms_spec in E2. auto.
  - right. split; [reflexivity|]. intros (_ & _ & H). apply valid_hms_spec in H. congruence.
  - right. split; [reflexivity|]. intros (Hy & Hd & _). rewrite valid_ymd_spec in E1 by assumption.
    discriminate.
Qed.

(** ** A tactic that reads back every field of a layout in the goal *)

Ltac cast_facts v :=
  try (rewrite (small_u8 _ v) by (first [eassumption | reflexivity | intros ?; discriminate]));
  try (rewrite (small_u16 _ v) by (first [eassumption | reflexivity | intros ?; discriminate]));
  try (rewrite (small_u32 _ v) by (first [eassumption | reflexivity | intros ?; discriminate])).

Ltac field_facts L rest Hs k off l :=
  lazymatch l with
  | nil => idtac
  | cons ?f ?l' =>
    lazymatch f with
    | U ?w ?v =>
      let H := fresh "R" in
      assert (H : pick_u64 (layout_bits L ++ rest) off w = v)
        by (apply (lay_u L k w v off rest Hs); [reflexivity|reflexivity|lia|first [assumption | reflexivity]])
    | I ?w ?z =>
      let H := fresh "R" in
      assert (H : pick_i64 (layout_bits L ++ rest) off w = z)
        by (apply (lay_i L k w z off rest Hs); [reflexivity|reflexivity|lia|assumption])
    | F ?b =>
      let H := fresh "R" in
      assert (H : pick_u64 (layout_bits L ++ rest) off 1 = N.b2n b)
        by (apply (lay_f L k b off rest Hs); reflexivity)
    | T ?n ?codes =>
      let H := fresh "R" in
      match goal with Ht : text_field n ?text codes |- _ =>
        assert (H : forall E, @pick_string E (layout_bits L ++ rest) off n = Ok text)
          by (intros E; apply (lay_t L k n text codes off rest Hs); [reflexivity|reflexivity|exact Ht])
      end
    end;
    let w' := lazymatch f with U ?w _ => w | I ?w _ => w | F _ => constr:(1%nat) | T ?n _ => eval cbv in (6 * n)%nat end in
    let off' := eval cbv in (off + w')%nat in
    field_facts L rest Hs (S k) off' l'
  end.

(** Facts [R : pick.. = value] for all fields of the layout whose bits occur in the goal. *)
Ltac read_layout :=
  match goal with |- context [layout_bits ?L ++ ?rest] =>
    let Hs := fresh "Hs" in
    assert (Hs : well_sized L) by sized; field_facts L rest Hs 0%nat 0%nat L
  end.

(** Values of single fields. *)
Ltac field_value :=
  match goal with
  | R : pick_u64 ?B ?i 10 = _ |- context [sog_at ?B ?i] => rewrite (sog_value _ _ _ R) by assumption
  | R : pick_u64 ?B ?i 12 = _ |- context [cog_at ?B ?i] => rewrite (cog_value _ _ _ R)
  | R : pick_u64 ?B ?i 9 = _ |- context [heading_at ?B ?i] => rewrite (heading_value _ _ _ R)
  | R : pick_i64 ?B ?i 27 = _ |- context [latitude_at ?B ?i] =>
    unfold latitude_at at 1; rewrite (coord_value _ _ _ _ _ _ R) by (eapply small_i32; [eassumption|lia])
  | R : pick_i64 ?B ?i 28 = _ |- context [longitude_at ?B ?i] =>
    unfold longitude_at at 1; rewrite (coord_value _ _ _ _ _ _ R) by (eapply small_i32; [eassumption|lia])
  | R : pick_u64 ?B ?i 4 = _ |- context [position_fix_at ?B ?i] =>
    rewrite (position_fix_value _ _ _ R) by assumption
  | R : pick_u64 ?B ?i ?n = N.b2n ?b |- context [pick_flag ?B ?i] =>
    unfold pick_flag at 1; rewrite R, (flag_b2n b)
  | R : pick_u64 ?B ?i ?n = ?v |- context [pick_u64 ?B ?i ?n] => rewrite !R
  | R : pick_i64 ?B ?i ?n = ?v |- context [pick_i64 ?B ?i ?n] => rewrite !R
  | R : forall E, @pick_string E ?B ?i ?n = _ |- context [pick_string ?B ?i ?n] => rewrite !R
  | Hv : fits ?w ?v |- context [as_u8 ?v] => rewrite (small_u8 w v Hv) by (intros X; discriminate X)
  | Hv : fits ?w ?v |- context [as_u16 ?v] => rewrite (small_u16 w v Hv) by (intros X; discriminate X)
  | Hv : fits ?w ?v |- context [as_u32 ?v] => rewrite (small_u32 w v Hv) by (intros X; discriminate X)
  | Hv : fits ?w ?v |- context [as_i32 (Z.of_N ?v)] => rewrite (small_i32_N w v Hv) by (intros X; discriminate X)
  | |- context [N.b2n ?b =? 0] => rewrite (flag_b2n_0 b)
  end.
Ltac field_values := repeat field_value.

(** ** Leading bits of a field *)

Lemma pick_prefix bv i n m v :
  pick_u64 bv i (n + m) = v -> (n + m <= 64)%nat -> pick_u64 bv i n = v / 2 ^ N.of_nat m.
Proof.
  intros E H. rewrite pick_u64_spec in * by lia. rewrite window_split, be_value_app, window_length in E.
  pose proof (be_value_lt (window bv (i + n) m)) as Hl. rewrite window_length in Hl.
  subst v. symmetry. rewrite N.add_comm, N.div_add by (apply N.pow_nonzero; lia).
  rewrite N.div_small by exact Hl. apply N.add_0_l.
Qed.

Lemma fits_div w m v : fits (w + m) v -> fits w (v / 2 ^ m).
Proof.
  unfold fits. intros H. apply N.div_lt_upper_bound; [apply N.pow_nonzero; lia|].
  now rewrite <- N.pow_add_r, N.add_comm.
Qed.

(** ** ETA *)

Lemma eta_value {E} bv i now month day hour minute sec eta :
  pick_u64 bv i 4 = month -> pick_u64 bv (i + 4) 5 = day -> pick_u64 bv (i + 9) 5 = hour ->
  pick_u64 bv (i + 14) 6 = minute -> pick_u64 bv (i + 20) 6 = sec ->
  fits 4 month -> fits 5 day -> fits 5 hour -> fits 6 minute -> fits 6 sec ->
  eta_report now month day hour minute sec eta ->
  @pick_eta E bv i now = Ok eta.
Proof.
  intros E1 E2 E3 E4 E5 F1 F2 F3 F4 F5 H. unfold pick_eta. cbv zeta.
  replace (i + 4 + 5)%nat with (i + 9)%nat by lia. replace (i + 9 + 5)%nat with (i + 14)%nat by lia.
  replace (i + 14 + 6)%nat with (i + 20)%nat by lia.
  rewrite E1, E2, E3, E4, E5.
  rewrite (small_u32 4 month F1), (small_u32 5 day F2), (small_u32 5 hour F3), (small_u32 6 minute F4),
    (small_u32 6 sec F5) by lia.
  destruct H as [-> -> -> -> ->|mo d h mi s Hna Hmo Hd Ht Hy Hv Hvt]; [reflexivity|].
  destruct (N.eqb_spec month 0), (N.eqb_spec day 0), (N.eqb_spec hour 24), (N.eqb_spec minute 60),
    (N.eqb_spec sec 60); cbn [andb]; try (exfalso; tauto);
    try change (59 =? 60) with false; try change (60 =? 60) with true; cbv iota zeta beta;
    try match goal with H : ?x <> 60 |- context [?x =? 60] => rewrite (proj2 (N.eqb_neq x 60) H) end;
    (destruct Ht as [(Ha & -> & -> & ->)|[(Ha & Hb & -> & -> & ->)|(Ha & Hb & -> & -> & ->)]]; try contradiction);
    subst mo d; rewrite (ymd_and_hms_ok (dt_year now)) by assumption; cbn [bind]; now destruct (dt_leb _ _).
Qed.

(** ** Signed fields read as unsigned *)

Lemma fits_twos w z : fits (N.of_nat w) (twos w z).
Proof.
  unfold fits, twos. assert (Hp : (0 < 2 ^ Z.of_nat w)%Z) by (apply Z.pow_pos_nonneg; lia).
  pose proof (Z.mod_pos_bound z _ Hp). apply N2Z.inj_lt. rewrite Z2N.id by lia.
  rewrite N2Z.inj_pow, nat_N_Z. change (Z.of_N 2) with 2%Z. lia.
Qed.

Lemma lay_iu l k w z i rest :
  well_sized l -> nth_error l k = Some (I w z) -> list_sum (map fst (firstn k l)) = i ->
  (w <= 64)%nat -> pick_u64 (layout_bits l ++ rest) i w = twos w z.
Proof.
  intros Hl Hk Hi Hw. rewrite pick_u64_spec by exact Hw.
  unfold I in Hk. rewrite (layout_window l k w _ i rest Hl Hk Hi). apply be_value_fits, fits_twos.
Qed.
