(** The crate's own unit tests, run on the model: evidence that the model computes what the tests
    of the crate expect. These are checks of the model, not property theorems. *)
From Coq Require Import List NArith ZArith Bool String Floats.SpecFloat.
From Verif Require Import Base Str F64 Chrono Types Util AisMod Vdm Gnss Parser.
Import ListNotations.
Open Scope N_scope.

(** A clock reading for the tests (the crate reads the system clock). *)
Definition t_now : datetime := mk_datetime 2021 3 14 15 9 26 0.
Definition run1 (s : string) := parse_sentence true t_now (lit s) new_parser.
Definition num (s : string) : option f64 := parse_f64 (lit s).

(** [assert::close(x, v, eps)] with the bounds written out. *)
Definition within (x : option f64) (lo hi : string) : bool :=
  match x, num lo, num hi with
  | Some v, Some l, Some h =>
    match SFcompare l v, SFcompare v h with
    | Some Lt, Some Lt => true
    | _, _ => false
    end
  | _, _, _ => false
  end.

(** src/util.rs:219-234 *)
Example test_parse_payload :
  parse_payload true (lit "w7b0P1") =
  Ok (map (N.eqb 1) [1;1;1;1;1;1; 0;0;0;1;1;1; 1;0;1;0;1;0; 0;0;0;0;0;0; 1;0;0;0;0;0; 0;0;0;0;0;1]).
Proof. vm_compute. reflexivity. Qed.

(** src/util.rs:236-245 *)
Example test_pick_u64 :
  let bv := [true; false; true; true; false; true] in
  map (fun '(i, l) => pick_u64 bv i l) [(0,2); (2,2); (4,2); (0,6); (4,4); (6,2)]%nat = [2;3;1;45;4;0].
Proof. vm_compute. reflexivity. Qed.

(** src/util.rs:247-254 *)
Example test_pick_i64 :
  map (fun l => pick_i64 (map (N.eqb 1) l) 0 6)
    [[0;1;1;1;1;1]; [0;0;0;0;0;1]; [0;0;0;0;0;0]; [1;1;1;1;1;1]; [1;0;0;0;0;0]]
  = [31; 1; 0; -1; -32]%Z.
Proof. vm_compute. reflexivity. Qed.

(** src/util.rs:256-270 *)
Example test_pick_string :
  pick_string (E := str)
    (map (N.eqb 1) [1;1;1;1;1;1; 0;0;0;0;0;1; 0;0;0;1;1;1; 0;1;1;1;1;1; 1;1;0;1;0;0; 1;1;1;0;1;0;
                    1;0;0;0;0;1; 0;0;0;0;0;0; 0;0;0;0;1;0]) 0 9 = Ok (lit "?AG_4:!").
Proof. vm_compute. reflexivity. Qed.

(** src/lib.rs:599-611 *)
Example test_parse_corrupted :
  fst (run1 "!AIVDM,1,1,,A,38Id705000rRVJhE7cl9n;160000,0*41")
  = Err (CorruptedSentence (lit "40") (lit "41")).
Proof. vm_compute. reflexivity. Qed.

Example test_parse_missing_checksum :
  match fst (run1 "!AIVDM,1,1,,A,38Id705000rRVJhE7cl9n;160000,0") with Ok _ => True | _ => False end.
Proof. vm_compute. exact I. Qed.

(** src/lib.rs:637-656 *)
Example test_country :
  map mid_country [230992580; 276009860; 265803690; 273353180; 211805060; 257037270; 227232370;
                   248221000; 374190000; 412511368; 512003200; 995126020; 2300049; 0]
  = map Some (map lit ["FI"; "EE"; "SE"; "RU"; "DE"; "NO"; "FR"; "MT"; "PA"; "CN"; "NZ"])%string
    ++ [None; None; None].
Proof. vm_compute. reflexivity. Qed.

(** src/ais/vdm_t1t2t3.rs:149-185 *)
Example test_type1 :
  match fst (run1 "!AIVDM,1,1,,A,15RTgt0PAso;90TKcjM8h6g208CQ,0*4A") with
  | Ok (PsVesselDynamicData v) =>
    (vdd_mmsi v, vdd_nav_status v, vdd_rot v, vdd_rot_direction v, vdd_sog_knots v,
     vdd_high_position_accuracy v)
    = (371798000, NsUnderWayUsingEngine, None, Some (-1)%Z, num "12.3", true)
    /\ within (vdd_latitude v) "48.3816333" "48.3816334" = true
    /\ within (vdd_longitude v) "-123.3953834" "-123.3953833" = true
    /\ (vdd_cog v, vdd_heading_true v, vdd_timestamp_seconds v, vdd_positioning_system_meta v,
        vdd_special_manoeuvre v, vdd_raim_flag v)
       = (num "224.0", num "215.0", 33, Some PsOperative, None, false)
  | _ => False
  end.
Proof. vm_compute. repeat split; reflexivity. Qed.

(** src/ais/vdm_t1t2t3.rs:187-222 *)
Example test_type2 :
  match fst (run1 "!AIVDM,1,1,,A,16SteH0P00Jt63hHaa6SagvJ087r,0*42") with
  | Ok (PsVesselDynamicData v) =>
    (vdd_mmsi v, vdd_nav_status v, vdd_rot v, vdd_rot_direction v, vdd_sog_knots v,
     vdd_high_position_accuracy v)
    = (440348000, NsUnderWayUsingEngine, None, None, num "0.0", false)
    /\ within (vdd_latitude v) "43.0801" "43.0802" = true
    /\ within (vdd_longitude v) "-70.7583" "-70.7581" = true
    /\ (vdd_cog v, vdd_heading_true v, vdd_timestamp_seconds v, vdd_positioning_system_meta v,
        vdd_special_manoeuvre v, vdd_raim_flag v)
       = (num "93.4", None, 13, Some PsOperative, None, false)
  | _ => False
  end.
Proof. vm_compute. repeat split; reflexivity. Qed.

(** src/ais/vdm_t1t2t3.rs:224-259 *)
Example test_type3 :
  match fst (run1 "!AIVDM,1,1,,A,38Id705000rRVJhE7cl9n;160000,0*40") with
  | Ok (PsVesselDynamicData v) =>
    (vdd_mmsi v, vdd_nav_status v, vdd_rot v, vdd_rot_direction v, vdd_sog_knots v,
     vdd_high_position_accuracy v)
    = (563808000, NsMoored, num "0.0", Some 0%Z, num "0.0", true)
    /\ within (vdd_latitude v) "36.90" "36.92" = true
    /\ within (vdd_longitude v) "-76.34" "-76.32" = true
    /\ (vdd_cog v, vdd_heading_true v, vdd_timestamp_seconds v, vdd_positioning_system_meta v,
        vdd_special_manoeuvre v, vdd_raim_flag v)
       = (num "252.0", num "352.0", 35, Some PsOperative, None, false)
  | _ => False
  end.
Proof. vm_compute. repeat split; reflexivity. Qed.

(** src/ais/vdm_t18.rs:103-139 *)
Example test_type18 :
  match fst (run1 "!AIVDM,1,1,,A,B52K>;h00Fc>jpUlNV@ikwpUoP06,0*4C") with
  | Ok (PsVesselDynamicData v) =>
    (vdd_mmsi v, vdd_nav_status v, vdd_rot v, vdd_rot_direction v, vdd_sog_knots v,
     vdd_high_position_accuracy v)
    = (338087471, NsNotDefined, None, None, num "0.1", false)
    /\ within (vdd_latitude v) "40.6" "40.8" = true
    /\ within (vdd_longitude v) "-74.2" "-74.0" = true
    /\ within (vdd_cog v) "79.5" "79.7" = true
    /\ (vdd_heading_true v, vdd_timestamp_seconds v, vdd_positioning_system_meta v,
        vdd_special_manoeuvre v, vdd_raim_flag v) = (None, 49, None, None, true)
  | _ => False
  end.
Proof. vm_compute. repeat split; reflexivity. Qed.

(** src/ais/vdm_t21.rs:373-427 *)
Example test_type21 :
  let '(r1, p1) := run1 "!AIVDM,2,1,5,B,E1mg=5J1T4W0h97aRh6ba84<h2d;W:Te=eLvH50```q,0*46" in
  r1 = Ok PsIncomplete /\
  match fst (parse_sentence true t_now (lit "!AIVDM,2,2,5,B,:D44QDlp0C1DU00,2*36") p1) with
  | Ok (PsAidToNavigationReport a) =>
    (atn_mmsi a, atn_aid_type a, atn_name a, atn_high_position_accuracy a)
    = (123456789, NaCardinalMarkNorth, lit "CHINA ROSE MURPHY EXPRESS ALERT", false)
    /\ within (atn_latitude a) "47.9206183233" "47.9206183433" = true
    /\ within (atn_longitude a) "-122.698591677" "-122.698591657" = true
    /\ (atn_dimension_to_bow a, atn_dimension_to_stern a, atn_dimension_to_port a,
        atn_dimension_to_starboard a, atn_position_fix_type a, atn_timestamp_seconds a)
       = (Some 5, Some 5, Some 5, Some 5, Some PfGPS, 50)
    /\ (atn_off_position_indicator a, atn_regional a, atn_raim_flag a, atn_virtual_aid_flag a,
        atn_assigned_mode_flag a) = (false, 165, false, false, false)
  | _ => False
  end.
Proof. vm_compute. repeat split; reflexivity. Qed.

(** src/ais/vdm_t24.rs:220-287 *)
Example test_type24 :
  let '(r1, p1) := run1 "!AIVDM,1,1,,A,H42O55i18tMET00000000000000,2*6D" in
  r1 = Ok PsIncomplete /\
  match fst (parse_sentence true t_now (lit "!AIVDM,1,1,,A,H42O55lti4hhhilD3nink000?050,0*40") p1) with
  | Ok (PsVesselStaticData v) =>
    (vsd_mmsi v, vsd_ais_version_indicator v, vsd_imo_number v, vsd_call_sign v, vsd_name v,
     vsd_ship_type v, vsd_cargo_type v, vsd_equipment_vendor_id v)
    = (271041815, 0, None, Some (lit "TC6163"), Some (lit "PROGUY"), ShPassenger, CaUndefined,
       Some (lit "1D0"))
    /\ (vsd_dimension_to_bow v, vsd_dimension_to_stern v, vsd_dimension_to_port v,
        vsd_dimension_to_starboard v) = (Some 0, Some 15, Some 0, Some 5)
    /\ (vsd_position_fix_type v, vsd_eta v, vsd_draught10 v, vsd_destination v)
       = (None, None, None, None)
  | _ => False
  end.
Proof. vm_compute. repeat split; reflexivity. Qed.

(** src/ais/vdm_t27.rs:102-136 *)
Example test_type27 :
  match fst (run1 "!AIVDM,1,1,,B,KC5E2b@U19PFdLbMuc5=ROv62<7m,0*16") with
  | Ok (PsVesselDynamicData v) =>
    (vdd_mmsi v, vdd_nav_status v, vdd_rot v, vdd_rot_direction v, vdd_sog_knots v,
     vdd_high_position_accuracy v)
    = (206914217, NsNotUnderCommand, None, None, num "1.0", false)
    /\ within (vdd_latitude v) "136.9" "137.1" = true
    /\ within (vdd_longitude v) "4.7" "4.9" = true
    /\ within (vdd_cog v) "289.0" "291.0" = true
    /\ (vdd_timestamp_seconds v, vdd_current_gnss_position v, vdd_raim_flag v)
       = (0, Some true, false)
  | _ => False
  end.
Proof. vm_compute. repeat split; reflexivity. Qed.

(** src/ais/vdm_t4.rs:133-163 *)
Example test_type4 :
  match fst (run1 "!AIVDM,1,1,,A,403OviQuMGCqWrRO9>E6fE700@GO,0*4D") with
  | Ok (PsBaseStationReport b) =>
    (bsr_mmsi b, bsr_timestamp b, bsr_high_position_accuracy b, bsr_position_fix_type b,
     bsr_raim_flag b, bsr_radio_status b)
    = (3669702, Some (mk_datetime 2007 5 14 19 57 39 0), true, Some PfSurveyed, false, 67039)
    /\ within (bsr_latitude b) "36.883" "36.885" = true
    /\ within (bsr_longitude b) "-76.353" "-76.351" = true
  | _ => False
  end.
Proof. vm_compute. repeat split; reflexivity. Qed.

Definition t5_s1 : str :=
  lit "!AIVDM,2,1,1,A,55?MbV02;H;s<HtKR20EHE:0@T4@Dn2222222216L961O5Gf0NSQEp6ClRp8,0*1C".
Definition t5_s2 : str := lit "!AIVDM,2,2,1,A,88888888880,2*25".

(** The assertions of src/ais/vdm_t5.rs on the decoded message. *)
Definition t5_expected (r : outcome ParseError ParsedSentence) : Prop :=
  match r with
  | Ok (PsVesselStaticData v) =>
    (vsd_mmsi v, vsd_ais_version_indicator v, vsd_imo_number v, vsd_call_sign v, vsd_name v,
     vsd_ship_type v, vsd_cargo_type v)
    = (351759000, 0, Some 9134270, Some (lit "3FOF8"), Some (lit "EVER DIADEM"), ShCargo, CaUndefined)
    /\ (vsd_dimension_to_bow v, vsd_dimension_to_stern v, vsd_dimension_to_port v,
        vsd_dimension_to_starboard v, vsd_position_fix_type v)
       = (Some 225, Some 70, Some 1, Some 31, Some PfGPS)
    /\ vsd_eta v = Some (mk_datetime 2021 5 15 14 0 30 0)
    /\ (vsd_draught10 v, vsd_destination v) = (Some 122, Some (lit "NEW YORK"))
  | _ => False
  end.

(** src/ais/vdm_t5.rs:91-209, both orders of the fragments *)
Example test_type5 :
  let '(_, p1) := parse_sentence true t_now t5_s1 new_parser in
  let '(r2, p2) := parse_sentence true t_now t5_s2 p1 in
  let '(_, p3) := parse_sentence true t_now t5_s2 p2 in
  let '(r4, p4) := parse_sentence true t_now t5_s1 p3 in
  (strings_count p1, strings_count p2, strings_count p3, strings_count p4) = (1, 0, 1, 0)%nat
  /\ t5_expected r2 /\ t5_expected r4.
Proof. vm_compute. repeat split; reflexivity. Qed.

(** src/ais/vdm_t6.rs:103-132 *)
Example test_type6 :
  match fst (run1 "!AIVDM,1,1,,B,6B?n;be:cbapalgc;i6?Ow4,2*4A") with
  | Ok (PsBinaryAddressedMessage b) =>
    (bam_mmsi b, bam_sequence_number b, bam_destination_mmsi b, bam_retransmit_flag b, bam_dac b,
     bam_fid b) = (150834090, 3, 313240222, false, 669, 11)
  | _ => False
  end.
Proof. vm_compute. reflexivity. Qed.

(** src/ais/vdm_t9.rs:167-202 *)
Example test_type9 :
  match fst (run1 "!AIVDM,1,1,,B,91b55wi;hbOS@OdQAC062Ch2089h,0*30") with
  | Ok (PsStandardSarAircraftPositionReport s) =>
    (sar_mmsi s, sar_altitude s, sar_sog_knots s, sar_high_position_accuracy s, sar_cog s,
     sar_timestamp_seconds s, sar_regional s)
    = (111232511, Some 303, Some 42, false, num "154.5", 15, 0)
    /\ within (sar_longitude s) "-6.27885" "-6.27883" = true
    /\ within (sar_latitude s) "58.14399" "58.14401" = true
    /\ (sar_dte s, sar_assigned s, sar_raim_flag s, sar_radio_status s) = (false, false, false, 33392)
  | _ => False
  end.
Proof. vm_compute. repeat split; reflexivity. Qed.

(** src/ais/vdm_t10.rs:65-89 *)
Example test_type10 :
  match fst (run1 "!AIVDM,1,1,,B,:5MlU41GMK6@,0*6C") with
  | Ok (PsUtcDateInquiry u) => (udi_source_mmsi u, udi_destination_mmsi u) = (366814480, 366832740)
  | _ => False
  end.
Proof. vm_compute. reflexivity. Qed.

(** src/gnss/gga.rs:145-180 *)
Example test_gga :
  match fst (run1 "$GPGGA,123519,4807.038,N,01131.000,E,1,08,0.9,545.4,M,46.9,M,,*47") with
  | Ok (PsGga g) =>
    gga_timestamp g = Some (mk_datetime 2021 3 14 12 35 19 0)
    /\ within (gga_latitude g) "48.116" "48.118" = true
    /\ within (gga_longitude g) "11.516" "11.518" = true
    /\ (gga_quality g, gga_satellite_count g, gga_hdop g, gga_altitude g, gga_geoid_separation g,
        gga_age_of_dgps g, gga_ref_station_id g)
       = (QGpsFix, Some 8, num "0.9", num "545.4", num "46.9", None, None)
  | _ => False
  end.
Proof. vm_compute. repeat split; reflexivity. Qed.

(** src/gnss/gga.rs:182-205 *)
Example test_gga_southwest :
  match fst (run1 "$GPGGA,123519,4807.0,S,01131.0,W,1,08,0.9,545.4,M,46.9,M,,") with
  | Ok (PsGga g) =>
    within (gga_latitude g) "-48.1175" "-48.1165" = true
    /\ within (gga_longitude g) "-11.5175" "-11.5165" = true
  | _ => False
  end.
Proof. vm_compute. repeat split; reflexivity. Qed.

(** src/gnss/gga.rs:207-241 *)
Example test_gga_empty_fields :
  fst (run1 "$GPGGA,123519,,,,,,,,,,,,,*5B")
  = Ok (PsGga {| gga_source := NavGps; gga_timestamp := Some (mk_datetime 2021 3 14 12 35 19 0);
                 gga_latitude := None; gga_longitude := None; gga_quality := QInvalid;
                 gga_satellite_count := None; gga_hdop := None; gga_altitude := None;
                 gga_geoid_separation := None; gga_age_of_dgps := None; gga_ref_station_id := None |}).
Proof. vm_compute. reflexivity. Qed.

(** src/gnss/rmc.rs:104-133 *)
Example test_rmc :
  match fst (run1 "$GPRMC,225446,A,4916.45,N,12311.12,W,000.5,054.7,191120,020.3,E*67") with
  | Ok (PsRmc r) =>
    (rmc_status_active r, rmc_timestamp r, rmc_sog_knots r, rmc_bearing r, rmc_variation r)
    = (Some true, Some (mk_datetime 2020 11 19 22 54 46 0), num "0.5", num "54.7", num "20.3")
  | _ => False
  end.
Proof. vm_compute. reflexivity. Qed.

(** src/gnss/rmc.rs:135-163 *)
Example test_rmc_empty_fields :
  match fst (run1 "$GPRMC,225446,A,,,,,,,070809,,*23") with
  | Ok (PsRmc r) =>
    (rmc_status_active r, rmc_timestamp r, rmc_sog_knots r, rmc_bearing r, rmc_variation r)
    = (Some true, Some (mk_datetime 2009 8 7 22 54 46 0), None, None, None)
  | _ => False
  end.
Proof. vm_compute. reflexivity. Qed.

(** src/gnss/gsa.rs:115-143 *)
Example test_gsa :
  fst (run1 "$GPGSA,A,3,19,28,14,18,27,22,31,39,,,,,1.7,1.0,1.3*34")
  = Ok (PsGsa {| gsa_source := NavGps; gsa_mode1_automatic := Some true; gsa_mode2_3d := Some Fix3D;
                 gsa_prn_numbers := [19;28;14;18;27;22;31;39];
                 gsa_pdop := num "1.7"; gsa_hdop := num "1.0"; gsa_vdop := num "1.3" |}).
Proof. vm_compute. reflexivity. Qed.

(** src/gnss/gsv.rs:97-152 *)
Example test_gsv :
  let '(r1, p1) := run1 "$GPGSV,3,1,11,03,03,111,00,04,15,270,00,06,01,010,00,13,06,292,00*74" in
  let '(r2, p2) := parse_sentence true t_now
    (lit "$GPGSV,3,2,11,14,25,170,00,16,57,208,39,18,67,296,40,19,40,246,00*74") p1 in
  let '(r3, p3) := parse_sentence true t_now
    (lit "$GPGSV,3,3,11,22,42,067,42,24,14,311,43,27,05,244,00,,,,*4D") p2 in
  (r1, r2, strings_count p1, strings_count p2, strings_count p3)
  = (Ok PsIncomplete, Ok PsIncomplete, 1, 2, 0)%nat
  /\ match r3 with
     | Ok (PsGsv v) =>
       List.length v = 11%nat
       /\ map (option_map (fun g => (gsv_elevation g, gsv_azimuth g, gsv_snr g)))
              [nth_error v 1; nth_error v 4; nth_error v 10]
          = [Some (Some 15, Some 270, Some 0); Some (Some 25, Some 170, Some 0);
             Some (Some 5, Some 244, Some 0)]
     | _ => False
     end.
Proof. vm_compute. repeat split; reflexivity. Qed.

(** src/gnss/vtg.rs:64-89 *)
Example test_vtg :
  fst (run1 "$BDVTG,054.7,T,034.4,M,005.5,N,010.2,K,D*31")
  = Ok (PsVtg {| vtg_source := NavBeidou; vtg_cog_true := num "54.7"; vtg_cog_magnetic := num "34.4";
                 vtg_sog_knots := num "5.5"; vtg_sog_kph := num "10.2";
                 vtg_faa_mode := Some FaaDifferential |}).
Proof. vm_compute. reflexivity. Qed.

(** src/gnss/gll.rs:89-117 *)
Example test_gll :
  match fst (run1 "$GAGLL,4916.45,N,12311.12,W,225444,A,D*48") with
  | Ok (PsGll g) =>
    (gll_source g, gll_timestamp g, gll_data_valid g, gll_faa_mode g)
    = (NavGalileo, Some (mk_datetime 2021 3 14 22 54 44 0), Some true, Some FaaDifferential)
    /\ within (gll_latitude g) "49.2" "49.4" = true
    /\ within (gll_longitude g) "-123.3" "-123.1" = true
  | _ => False
  end.
Proof. vm_compute. repeat split; reflexivity. Qed.
