(** Specification vocabulary for results: which kind of data, from which source. *)
From Coq Require Import List NArith ZArith Bool String.
From Verif Require Import Base Str F64 Chrono Types SpecText.
Import ListNotations.
Open Scope N_scope.

(** The documented meaning of GNSS talker ids. *)
Definition gnss_talkers : list (str * NavigationSystem) :=
  [(lit "GN", NavCombination); (lit "GP", NavGps); (lit "GL", NavGlonass); (lit "GA", NavGalileo);
   (lit "BD", NavBeidou); (lit "GI", NavNavic); (lit "QZ", NavQzss)].

(** [n] is the navigation system named by talker [tt]. *)
Definition names_system (tt : str) (n : NavigationSystem) : Prop :=
  In (tt, n) gnss_talkers \/ (~ In tt (map fst gnss_talkers) /\ n = NavOther).

(** The documented meaning of AIS talker ids. *)
Definition ais_talkers : list (str * Station) :=
  [(lit "AB", StBaseStation); (lit "AD", StDependentAisBaseStation); (lit "AI", StMobileStation);
   (lit "AN", StAidToNavigationStation); (lit "AR", StAisReceivingStation);
   (lit "AS", StLimitedBaseStation); (lit "AT", StAisTransmittingStation);
   (lit "AX", StRepeaterStation)].

(** [n] is the station type named by talker [tt]. *)
Definition names_station (tt : str) (n : Station) : Prop :=
  In (tt, n) ais_talkers \/ (~ In tt (map fst ais_talkers) /\ n = StOther).

(** The formatters of GNSS data and the sources of a GNSS result. *)
Definition gnss_result (r : ParsedSentence) : option (str * list NavigationSystem) :=
  match r with
  | PsGga d => Some (lit "GGA", [gga_source d])
  | PsRmc d => Some (lit "RMC", [rmc_source d])
  | PsGsa d => Some (lit "GSA", [gsa_source d])
  | PsGsv ds => Some (lit "GSV", map gsv_source ds)
  | PsVtg d => Some (lit "VTG", [vtg_source d])
  | PsGll d => Some (lit "GLL", [gll_source d])
  | _ => None
  end.

(** Own-vessel flag and, where present, station of an AIS result. *)
Definition ais_result (r : ParsedSentence) : option (bool * list Station) :=
  match r with
  | PsVesselDynamicData d => Some (vdd_own_vessel d, [vdd_station d])
  | PsVesselStaticData d => Some (vsd_own_vessel d, [])
  | PsBaseStationReport d => Some (bsr_own_vessel d, [bsr_station d])
  | PsBinaryAddressedMessage d => Some (bam_own_vessel d, [bam_station d])
  | PsStandardSarAircraftPositionReport d => Some (sar_own_vessel d, [sar_station d])
  | PsUtcDateInquiry d => Some (udi_own_vessel d, [udi_station d])
  | PsAidToNavigationReport d => Some (atn_own_vessel d, [atn_station d])
  | _ => None
  end.

(** Formatters with data of their own. *)
Definition gnss_formatters : list str :=
  [lit "GGA"; lit "RMC"; lit "GSA"; lit "GSV"; lit "VTG"; lit "GLL"].
Definition ais_formatters : list str := [lit "VDM"; lit "VDO"].

(** GNSS formatters the crate knows by name but does not decode. *)
Definition undecoded_formatters : list str :=
  [lit "ALM"; lit "BOD"; lit "HDT"; lit "RMA"; lit "STN"; lit "TRF"; lit "VBW"; lit "XTC"; lit "XTE";
   lit "ZDA"].
