(** Model of the special cases of products: pdr/formats/checkers.py:59-1430, and of
    [get_offset] of pdr/formats/cassini.py.  Line numbers cite checkers.py unless another file
    is named.  The rules below were written down by tools/checkers.py, one for each [if] of the
    code, in its order; [check_special_objects] is in Model/Objects; [special_image_constants]
    (the constants of CRISM) is not modelled.  What a handler does once it was chosen is not modelled, but for
    cassini.get_offset. *)
From Verif.Base Require Import Py Val.
From Verif.Model Require Import Dispatch.
From Coq Require Import QArith.

(** ** The conditions of the code, which Python evaluates from left to right and may raise *)
(** identifiers[f], name (or pointer, or object_name), fn (or data.filename), x.lower(),
    block[k], block[k][l], data.metaget_(f), data.metaget_(f, ""), data.metaget_(f)[0] and
    base_samp_info["SAMPLE_TYPE"] *)
Inductive subject :=
| Ident (f : str) | Name | File | Lower (x : subject) | Block (k : str) | BlockIn (k l : str)
| Label (f : str) | LabelOr (f : str) | LabelFirst (f : str) | Sample.
(** regular expressions: text, any character but a newline, one of these, one or more of these *)
Inductive piece := Lit (s : str) | Any | OneOf (cs : str) | Several (cs : str).
(** x == s, x in [l], x == n, w in x, x.startswith(s), x.endswith(s), re.match(one of l, x),
    re.search(one of the words, x), x in s, k in data.keys(), n <= float(x), float(x) <= n *)
Inductive cond :=
| Is (x : subject) (s : str) | IsOneOf (x : subject) (l : list str) | IsNumber (x : subject) (n : Z)
| Has (w : str) (x : subject) | Starts (x : subject) (s : str) | Ends (x : subject) (s : str)
| Matches (x : subject) (l : list (list piece)) | Search (x : subject) (words : list str)
| Within (x : subject) (s : str) | Listed (k : str) | AtLeast (n : Z) (x : subject) | AtMost (n : Z) (x : subject)
| Not (c : cond) | And (a b : cond) | Or (a b : cond).
Infix "&." := And (at level 45, left associativity).
Infix "|." := Or (at level 46, left associativity).
(** what is returned: (True, formats.m.f(...)), formats.m.f(...) (which itself says whether the
    product is special), (True, "text"), (False, None) *)
Inductive action := Always (m f : str) | Maybe (m f : str) | Says (s : str) | Nothing.
Record rule := mkRule { when : cond; action_of : action }.

(** what the checkers look at *)
Record asked := mkAsked {
  ident : str -> pv; (* the identifiers, see C10: no sequences *)
  object : str; file : str; block : pv; label : str -> pv; listed : list str; sample : pv;
  to_float : pv -> res Q (* float(...) *) }.

Definition is_text (v : pv) (s : str) : bool := match v with PStr t => str_eqb t s | _ => false end.
Definition item (v : pv) (k : str) : res pv :=
  match v with
  | PMulti b | PDict b => match md_get b k with Some v => Ok v | None => Err KeyError end
  | _ => Err TypeError
  end.
Fixpoint value (p : asked) (x : subject) : res pv :=
  match x with
  | Ident f => Ok (ident p f)
  | Name => Ok (PStr (object p))
  | File => Ok (PStr (file p))
  | Lower x => do v <- value p x; match v with PStr s => Ok (PStr (lower s)) | _ => Err AttributeError end
  | Block k => item (block p) k
  | BlockIn k l => do v <- item (block p) k; item v l
  | Label f => Ok (label p f)
  | LabelOr f => Ok (match label p f with PNone => PStr [] | v => v end)
  | LabelFirst f =>
      match label p f with
      | PTuple (v :: _) => Ok v
      | PStr (c :: _) => Ok (PStr [c])
      | PTuple [] | PStr [] => Err IndexError
      | PMulti _ | PDict _ => Err KeyError
      | _ => Err TypeError
      end
  | Sample => Ok (sample p)
  end.
(** w in v *)
Definition isin (w : str) (v : pv) : res bool :=
  match v with
  | PStr s => Ok (contains w s)
  | PTuple l | PSet l => Ok (existsb (fun v => is_text v w) l)
  | PMulti b | PDict b => Ok (md_has b w)
  | _ => Err TypeError
  end.
Definition on_text {A} (e : exn) (v : pv) (f : str -> A) : res A := match v with PStr s => Ok (f s) | _ => Err e end.
(** re.match of one alternative: at the beginning *)
Fixpoint re_match (l : list piece) (s : str) : bool :=
  match l with
  | [] => true
  | Lit w :: l => startswith w s && re_match l (skipn (length w) s)
  | Any :: l => match s with c :: s => negb (Ascii.eqb c NL) && re_match l s | [] => false end
  | OneOf cs :: l => match s with c :: s => has_char c cs && re_match l s | [] => false end
  | Several cs :: l =>
      (fix several (s : str) := match s with c :: s => has_char c cs && (re_match l s || several s) | [] => false end) s
  end.
Fixpoint eval (p : asked) (c : cond) : res bool :=
  match c with
  | Is x s => do v <- value p x; Ok (is_text v s)
  | IsOneOf x l => do v <- value p x; Ok (existsb (is_text v) l)
  | IsNumber x n => do v <- value p x; Ok (match v with PInt z => (z =? n)%Z | PFloat q => Qeq_bool q (inject_Z n) | _ => false end)
  | Has w x => do v <- value p x; isin w v
  | Starts x s => do v <- value p x; on_text AttributeError v (startswith s)
  | Ends x s => do v <- value p x; on_text AttributeError v (endswith s)
  | Matches x l => do v <- value p x; on_text TypeError v (fun s => existsb (fun r => re_match r s) l)
  | Search x words => do v <- value p x; on_text TypeError v (fun s => existsb (fun w => contains w s) words)
  | Within x s => do v <- value p x; on_text TypeError v (fun t => contains t s)
  | Listed k => Ok (str_in k (listed p))
  | AtLeast n x => do v <- value p x; do q <- to_float p v; Ok (Qle_bool (inject_Z n) q)
  | AtMost n x => do v <- value p x; do q <- to_float p v; Ok (Qle_bool q (inject_Z n))
  | Not c => do b <- eval p c; Ok (negb b)
  | And a b => do x <- eval p a; if x then eval p b else Ok false
  | Or a b => do x <- eval p a; if x then Ok true else eval p b
  end.
(** the [if]s of a checker, one after the other *)
Fixpoint decide (p : asked) (rules : list rule) : res action :=
  match rules with
  | [] => Ok Nothing
  | r :: rules => do x <- eval p (when r); if x then Ok (action_of r) else decide p rules
  end.

(** ** The rules *)
(** checkers.py:59-123 *)
Definition check_special_offset_rules : list rule :=
  [(* 68-69 *) mkRule (Is (Ident $"INSTRUMENT_ID") $"CHEMIN") (Maybe $"msl_cmn" $"get_offset");
   (* 70-75 *) mkRule (Is (Ident $"DATA_SET_ID") $"CLEM1-L-RSS-5-BSR-V1.0" &. Matches Name [[Lit $"HEADER_TABLE"]; [Lit $"DATA_TABLE"]]) (Maybe $"clementine" $"get_offset");
   (* 76-77 *) mkRule (Is (Ident $"INSTRUMENT_ID") $"THEMIS" &. Is Name $"QUBE") (Maybe $"themis" $"get_qube_offset");
   (* 79-84 *) mkRule ((Is (Ident $"INSTRUMENT_NAME") $"DESCENT IMAGER SPECTRAL RADIOMETER" &. Is (Ident $"PRODUCT_TYPE") $"RDR") |. Search (Ident $"FILE_NAME") [$"STRIP"; $"VISIBL"; $"IMAGE"; $"IR_"; $"TIME"; $"SUN"; $"SOLAR"]) (Maybe $"cassini" $"get_offset");
   (* 85-90 *) mkRule (Is (Ident $"DATA_SET_ID") $"CO-E/V/J-ISSNA/ISSWA-2-EDR-V1.0" &. AtLeast 1359362956 (Label $"SPACECRAFT_CLOCK_STOP_COUNT") &. AtMost 1363539029 (Label $"SPACECRAFT_CLOCK_STOP_COUNT")) (Maybe $"cassini" $"coiss_1006_offset");
   (* 91-96 *) mkRule (Is (Ident $"INSTRUMENT_ID") $"CRAT" &. Is (Ident $"PRODUCT_TYPE") $"EDR" &. Is Name $"TABLE_1") (Maybe $"lro" $"get_crater_offset");
   (* 97-101 *) mkRule (Is (Ident $"DATA_SET_ID") $"PHX-M-SSI-5-ATMOS-OPACITY-V1.0" &. Has $"TABLE" Name) (Maybe $"phoenix" $"phxao_table_offset");
   (* 102-107 *) mkRule (Is (Ident $"DATA_SET_ID") $"PHX-M-MECA-4-NIRDR-V1.0" &. IsOneOf (Ident $"PRODUCT_TYPE") [$"MECA_WCL_CP"; $"MECA_WCL_CV"] &. Has $"TABLE" Name) (Maybe $"phoenix" $"wcl_rdr_offset");
   (* 108-115 *) mkRule (Is (Ident $"INSTRUMENT_HOST_NAME") $"MARS SCIENCE LABORATORY" &. Is (Ident $"INSTRUMENT_ID") $"REMS" &. Is Name $"REMS_REPORT_TABLE" &. (Has $"HSDEF__" (Ident $"PRODUCT_ID") |. Has $"HSREG__" (Ident $"PRODUCT_ID"))) (Maybe $"msl_rems" $"edr_offset");
   (* 116-122 *) mkRule (Is (Ident $"INSTRUMENT_HOST_NAME") $"MARS SCIENCE LABORATORY" &. IsOneOf (Ident $"INSTRUMENT_ID") [$"MAHLI"; $"MAST_RIGHT"; $"MAST_LEFT"; $"MARDI"] &. Has $"EDR" (Ident $"DATA_SET_ID")) (Maybe $"msl_edr" $"edr_offset")].
(** checkers.py:126-375 *)
Definition check_special_table_reader_rules : list rule :=
  [(* 135-144 *) mkRule (IsOneOf (Ident $"DATA_SET_ID") [$"CO-S-MIMI-4-CHEMS-CALIB-V1.0"; $"CO-S-MIMI-4-LEMMS-CALIB-V1.0"; $"CO-S-MIMI-4-INCA-CALIB-V1.0"; $"CO-E/J/S/SW-MIMI-2-LEMMS-UNCALIB-V1.0"; $"CO-SSA-RADAR-3-ABDR-SUMMARY-V1.0"]) (Always $"cassini" $"spreadsheet_loader");
   (* 145-152 *) mkRule (Is (Ident $"INSTRUMENT_HOST_NAME") $"CASSINI ORBITER" &. Is (Ident $"PRODUCT_TYPE") $"ANCILLARY" &. Has $"CO-S-MIMI-4-" (Ident $"DATA_SET_ID")) (Always $"cassini" $"spreadsheet_loader");
   (* 153-155 *) mkRule (Is (Ident $"INSTRUMENT_ID") $"CHEMIN" &. Has $"SPREADSHEET" Name) (Always $"msl_cmn" $"spreadsheet_loader");
   (* 156-162 *) mkRule (Has $"MSL-M-SAM-" (Ident $"DATA_SET_ID") &. Has $"QMS" (Ident $"PRODUCT_ID") &. Has $"TABLE" Name) (Always $"msl_cmn" $"spreadsheet_loader");
   (* 163-167 *) mkRule (Is (Ident $"DATA_SET_ID") $"MSL-M-ROVER-6-RDR-PLACES-V1.0" &. Is Name $"SPREADSHEET") (Always $"msl_places" $"spreadsheet_loader");
   (* 168-174 *) mkRule (Is (Ident $"INSTRUMENT_NAME") $"ROSETTA PLASMA CONSORTIUM - MUTUAL IMPEDANCE PROBE" &. Has $"SPECTRUM_TABLE" Name) (Always $"rosetta" $"rosetta_table_loader");
   (* 175-188 *) mkRule ((Is (Ident $"SPACECRAFT_NAME") $"MAGELLAN" &. Is Name $"TABLE" &. Starts (Ident $"NOTE") $"Geometry") |. (Is (Ident $"DATA_SET_ID") $"GO-J-NIMS-4-ADR-SL9IMPACT-V1.0" &. Is Name $"TABLE" &. (Has $"CAL_DATA.TAB" (Ident $"PRODUCT_ID") |. Has $"G_DATA.TAB" (Ident $"PRODUCT_ID") |. Has $"R_DATA.TAB" (Ident $"PRODUCT_ID")))) (Always $"mgn" $"geom_table_loader");
   (* 189-195 *) mkRule (Starts (Ident $"DATA_SET_ID") $"MGN-V-RSS-5-OCC-PROF" &. Is Name $"TABLE") (Always $"mgn" $"occultation_loader");
   (* 196-201 *) mkRule (Is (Ident $"INSTRUMENT_ID") $"DLRE" &. IsOneOf (Ident $"PRODUCT_TYPE") [$"GCP"; $"PCP"; $"PRP"] &. Is Name $"TABLE") (Always $"diviner" $"diviner_l4_table_loader");
   (* 202-206 *) mkRule (Is (Ident $"DATA_SET_ID") $"GO-J-PWS-5-DDR-PLASMA-DENSITY-FULL-V1.0" &. Is Name $"SPREADSHEET") (Always $"galileo" $"pws_table_loader");
   (* 207-211 *) mkRule (Is (Ident $"DATA_SET_ID") $"ODY-M-GRS-5-ELEMENTS-V1.0" &. Is Name $"TABLE") (Always $"odyssey" $"map_table_loader");
   (* 212-217 *) mkRule (Is (Ident $"DATA_SET_ID") $"ULY-J-GAS-5-SKY-MAPS-V1.0" &. Is Name $"TABLE" &. Is (Block $"^STRUCTURE") $"GASDATA.FMT") (Always $"ulysses" $"gas_table_loader");
   (* 218-225 *) mkRule (Has $"MRO-M-MCS-5-DDR" (Ident $"DATA_SET_ID") &. Not (Has $"V1.0" (Ident $"DATA_SET_ID")) &. Is Name $"TABLE") (Always $"mro" $"mcs_ddr_table_loader");
   (* 226-232 *) mkRule (Is (Ident $"INSTRUMENT_ID") $"CRISM" &. Is (Ident $"PRODUCT_TYPE") $"ANCILLARY" &. Has $"OBS" (Ident $"PRODUCT_ID") &. Is Name $"TABLE") (Always $"mro" $"ancil_table_loader");
   (* 233-237 *) mkRule (Is (Ident $"DATA_SET_ID") $"IHW-C-IRFCURV-3-EDR-HALLEY-V2.0" &. Is Name $"TABLE") (Always $"ihw" $"curve_table_loader");
   (* 238-257 *) mkRule (IsOneOf (Ident $"DATA_SET_ID") [$"IHW-C-PPFLX-3-RDR-HALLEY-V1.0"; $"IHW-C-PPOL-3-RDR-HALLEY-V1.0"; $"IHW-C-PPSTOKE-3-RDR-HALLEY-V1.0"; $"IHW-C-PPMAG-3-RDR-HALLEY-V1.0"; $"IHW-C-MSNRDR-3-RDR-HALLEY-ETA-AQUAR-V1.0"; $"IHW-C-MSNRDR-3-RDR-HALLEY-ORIONID-V1.0"; $"IHW-C-MSNVIS-3-RDR-HALLEY-ETA-AQUAR-V1.0"; $"IHW-C-MSNVIS-3-RDR-HALLEY-ORIONID-V1.0"; $"IHW-C-IRFTAB-3-RDR-HALLEY-V1.0"; $"IHW-C-IRPOL-3-RDR-HALLEY-V1.0"; $"IHW-C-IRPHOT-3-RDR-HALLEY-V1.0"] &. Is Name $"TABLE") (Always $"ihw" $"add_newlines_table_loader");
   (* 258-262 *) mkRule (Is (Ident $"DATA_SET_ID") $"VG1-J-LECP-4-SUMM-SECTOR-15MIN-V1.1" &. Is Name $"TABLE") (Always $"voyager" $"lecp_table_loader");
   (* 263-268 *) mkRule (Is (Ident $"DATA_SET_ID") $"VG2-U-LECP-4-RDR-STEP-12.8MIN-V1.0" &. Is (Block $"INTERCHANGE_FORMAT") $"ASCII" &. Is Name $"TABLE") (Always $"voyager" $"lecp_table_loader");
   (* 269-273 *) mkRule (Is (Ident $"DATA_SET_ID") $"VG1-S-LECP-3-RDR-STEP-6MIN-V1.0" &. Is Name $"SPREADSHEET") (Always $"voyager" $"lecp_vg1_sat_table_loader");
   (* 274-278 *) mkRule (Is (Ident $"DATA_SET_ID") $"VL2-M-SEIS-5-RDR-V1.0" &. IsOneOf Name [$"TABLE"; $"SPREADSHEET"]) (Always $"viking" $"seis_table_loader");
   (* 279-283 *) mkRule (Has $"MEX-M-ASPERA3-2-EDR-IMA" (Ident $"DATA_SET_ID") &. Is Name $"SPREADSHEET") (Always $"mex" $"aspera_table_loader");
   (* 284-289 *) mkRule (Matches (Ident $"DATA_SET_ID") [[Lit $"MER"; OneOf $"12"; Lit $"-M-RSS-1-EDR-V1"; Any; Lit $"0"]] &. Is (Ident $"PRODUCT_TYPE") $"UHFD" &. Is Name $"SPREADSHEET") (Always $"mer" $"rss_spreadsheet_loader");
   (* 290-295 *) mkRule (Is (Ident $"DATA_SET_ID") $"PHX-M-MECA-4-NIRDR-V1.0" &. Is (Ident $"INSTRUMENT_ID") $"MECA_AFM" &. Has $"TABLE" Name) (Always $"phoenix" $"afm_table_loader");
   (* 296-302 *) mkRule (Is (Ident $"INSTRUMENT_HOST_NAME") $"MARS EXPRESS" &. Is (Ident $"INSTRUMENT_ID") $"MRS" &. (Has $"ODF" (Ident $"PRODUCT_ID") &. Has $"L1B" (Ident $"PRODUCT_ID")) &. Has $"TABLE" Name) (Always $"mex" $"mrs_l1b_odf_table_loader");
   (* 303-308 *) mkRule (Is (Ident $"DATA_SET_ID") $"LRO-L-MRFLRO-1-PDR-V1.0" &. Has $"HK_" (Ident $"PRODUCT_ID") &. Is Name $"SPREADSHEET") (Always $"lro" $"mini_rf_spreadsheet_loader");
   (* 309-317 *) mkRule (Is (Ident $"INSTRUMENT_HOST_NAME") $"MARS SCIENCE LABORATORY" &. Is (Ident $"INSTRUMENT_ID") $"REMS" &. Has $"TABLE" Name &. Has $"SP_____" (Ident $"PRODUCT_ID")) (Always $"msl_rems" $"edr_table_loader");
   (* 318-324 *) mkRule (Is (Ident $"INSTRUMENT_HOST_NAME") $"MARS SCIENCE LABORATORY" &. Is (Ident $"INSTRUMENT_ID") $"REMS" &. Is Name $"REMS_SCIENCE_TABLE" &. Has $"RDR" (Ident $"DATA_SET_ID")) (Always $"msl_rems" $"rdr_table_loader");
   (* 325-332 *) mkRule ((Has $"ICE-C-" (Ident $"DATA_SET_ID") &. Has $"-3-RDR-" (Ident $"DATA_SET_ID")) &. Has $"TRAJ_ICE" File &. Is Name $"TABLE") (Always $"ihw" $"add_newlines_table_loader");
   (* 333-338 *) mkRule (Is (Ident $"INSTRUMENT_HOST_NAME") $"LUNAR RECONNAISSANCE ORBITER" &. Is (Ident $"INSTRUMENT_NAME") $"RADIO SCIENCE SUBSYSTEM" &. Is Name $"WEAREC_TABLE") (Always $"lro" $"wea_table_loader");
   (* 339-344 *) mkRule (Is (Ident $"INSTRUMENT_HOST_NAME") $"LUNAR PROSPECTOR" &. Is (Ident $"PRODUCT_ID") $"OUTAGES" &. Is Name $"TABLE") (Always $"lp" $"ancillary_table_loader");
   (* 345-350 *) mkRule (Is (Ident $"DATA_SET_ID") $"ODY-M-GRS-2-EDR-V1.0" &. Is (Ident $"PRODUCT_TYPE") $"E_KERNEL" &. Has $".txt" (Lower File)) (Maybe $"odyssey" $"grs_e_kernel_loader");
   (* 351-358 *) mkRule (Is (Ident $"INSTRUMENT_HOST_NAME") $"VENUS EXPRESS" &. IsOneOf (Ident $"INSTRUMENT_ID") [$"VRA"] &. Is (Ident $"PRODUCT_TYPE") $"UDR" &. Has $".RAW" (Ident $"PRODUCT_ID")) (Always $"vex_vera" $"udr_table_loader");
   (* 368-373 *) mkRule (Is (Ident $"INSTRUMENT_ID") $"SPEDE" &. Has $"PD_40_" (Ident $"FILE_NAME") &. Has $".TAB" (Ident $"FILE_NAME")) (Always $"smart1_esa" $"spede_plasma40_table_reader")].
(** checkers.py:378-574 *)
Definition check_special_structure_rules : list rule :=
  [(* 389-396 *) mkRule (Is (Ident $"DATA_SET_ID") $"CLEM1-L-RSS-5-BSR-V1.0" &. Is Name $"DATA_TABLE") (Always $"clementine" $"get_structure");
   (* 397-405 *) mkRule (Is (Ident $"INSTRUMENT_HOST_NAME") $"MARS GLOBAL SURVEYOR" &. Is (Ident $"INSTRUMENT_ID") $"RSS" &. Is (Ident $"PRODUCT_TYPE") $"ODF" &. Is Name $"ODF3B_TABLE") (Always $"mgs" $"get_odf_structure");
   (* 407-414 *) mkRule (Is (Ident $"INSTRUMENT_HOST_NAME") $"MARS GLOBAL SURVEYOR" &. Is (Ident $"INSTRUMENT_NAME") $"RADIO SCIENCE SUBSYSTEM" &. Is (Ident $"PRODUCT_TYPE") $"ECS") (Always $"mgs" $"get_ecs_structure");
   (* 416-432 *) mkRule ((Is (Ident $"INSTRUMENT_HOST_NAME") $"CASSINI ORBITER" &. Is (Ident $"INSTRUMENT_ID") $"RPWS" &. Is Name $"TIME_SERIES") |. (Is (Ident $"INSTRUMENT_HOST_NAME") $"HUYGENS PROBE" &. (Has $"HUY_DTWG_ENTRY_AERO" File |. (Has $"HASI" (LabelOr $"FILE_NAME") &. Not (Has $"PWA" (Ident $"FILE_NAME")))))) (Always $"cassini" $"get_structure");
   (* 433-441 *) mkRule (Matches (Ident $"DATA_SET_ID") [[Lit $"GP-J-NMS-3-ENTRY-V1"; Any; Lit $"0"]; [Lit $"GP-J-ASI-3-ENTRY-V1"; Any; Lit $"0"]] &. Is Name $"TABLE") (Always $"galileo" $"probe_structure");
   (* 442-449 *) mkRule (Is (Ident $"DATA_SET_ID") $"GO-E-EPD-2-SAMP-PAD-V1.0" &. Is (Ident $"PRODUCT_ID") $"E1PAD_7.TAB" &. Is Name $"TIME_SERIES") (Always $"galileo" $"epd_structure");
   (* 450-457 *) mkRule (Has $"VEGA" (Ident $"DATA_SET_ID") &. Has $"-C-DUCMA-3-RDR-HALLEY-V1.0" (Ident $"DATA_SET_ID") &. Is Name $"TABLE") (Always $"vega" $"get_structure");
   (* 458-464 *) mkRule ((Is (Ident $"DATA_SET_ID") $"GIO-C-PIA-3-RDR-HALLEY-V1.0" |. Matches (Ident $"DATA_SET_ID") [[Lit $"VEGA"; Any; Lit $"-C-PUMA"]]) &. Is Name $"ARRAY") (Always $"vega" $"fix_array_structure");
   (* 465-471 *) mkRule (Matches (Ident $"DATA_SET_ID") [[Lit $"MRO-M-MCS-4-RDR-V1"; Any; Lit $"0"]; [Lit $"MRO-M-MCS-2-EDR-V1"; Any; Lit $"0"]] &. Is Name $"TABLE") (Always $"mro" $"get_structure");
   (* 472-479 *) mkRule (Is (Ident $"DATA_SET_ID") $"VG2-SS-PLS-4-SUMM-1HR-AVG-V1.0" &. Is Name $"TABLE" &. Is (Block $"^STRUCTURE") $"VGR_PLS_HR_2017.FMT") (Always $"voyager" $"get_structure");
   (* 480-483 *) mkRule (Has $"IHW-C-SPEC-" (Ident $"DATA_SET_ID") &. Is Name $"SPECTRUM") (Always $"ihw" $"get_structure");
   (* 484-491 *) mkRule (Is (Ident $"DATA_SET_ID") $"PHX-M-MECA-2-NIEDR-V1.0" &. Is Name $"TBL_TABLE" &. Is (BlockIn $"CONTAINER" $"^STRUCTURE") $"TBL_0_STATE_DATA.FMT") (Always $"phoenix" $"elec_em6_structure");
   (* 492-499 *) mkRule (Is (Ident $"DATA_SET_ID") $"PHX-M-MECA-4-NIRDR-V1.0" &. Is (Ident $"INSTRUMENT_ID") $"MECA_AFM" &. Has $"HEADER_TABLE" Name) (Always $"phoenix" $"afm_rdr_structure");
   (* 500-507 *) mkRule (Is (Ident $"DATA_SET_ID") $"PHX-M-TEGA-2-LEDEDR-V1.0" &. Is Name $"TIME_SERIES" &. Is (Block $"^STRUCTURE") $"TEGA_LED.FMT") (Always $"phoenix" $"led_edr_structure");
   (* 508-515 *) mkRule (Is (Ident $"DATA_SET_ID") $"PHX-M-TEGA-4-SCRDR-V1.0" &. Is Name $"TIME_SERIES" &. Is (Block $"^STRUCTURE") $"TEGA_SCRDR.FMT") (Always $"phoenix" $"sc_rdr_structure");
   (* 516-522 *) mkRule (Is (Ident $"DATA_SET_ID") $"MEX-SUN-ASPERA3-4-SWM-V1.0" &. Is Name $"TABLE") (Always $"mex" $"aspera_ima_ddr_structure");
   (* 523-530 *) mkRule (Has $"-MIDAS-3-" (Ident $"DATA_SET_ID") &. Has $"SPS" (Ident $"PRODUCT_ID") &. Is Name $"TIME_SERIES") (Always $"rosetta" $"midas_rdr_sps_structure");
   (* 531-538 *) mkRule (Has $"-MIDAS-3-" (Ident $"DATA_SET_ID") &. Has $"FSC" (Ident $"PRODUCT_ID") &. Is Name $"FREQUENCY_SERIES") (Always $"rosetta" $"fix_pad_length_structure");
   (* 539-549 *) mkRule ((Has $"ROSETTA" (Ident $"DATA_SET_NAME") &. Has $"CONSERT" (Ident $"DATA_SET_NAME") &. Has $"TABLE" Name &. (Starts Name $"I_" |. Starts Name $"Q_")) &. Has $"GRNDBENCH" (Ident $"DATA_SET_ID")) (Nothing);
   (* 539-549 *) mkRule (Has $"ROSETTA" (Ident $"DATA_SET_NAME") &. Has $"CONSERT" (Ident $"DATA_SET_NAME") &. Has $"TABLE" Name &. (Starts Name $"I_" |. Starts Name $"Q_")) (Always $"rosetta" $"fix_pad_length_structure");
   (* 550-557 *) mkRule (Is (Ident $"SPACECRAFT_NAME") $"GALILEO ORBITER" &. IsOneOf (Ident $"INSTRUMENT_NAME") [$"SOLID_STATE_IMAGING"; $"SOLID STATE IMAGING SYSTEM"]) (Maybe $"galileo" $"ssi_redr_structure");
   (* 558-563 *) mkRule (Is (Ident $"DATA_SET_ID") $"ODY-M-GRS-2-EDR-V1.0" &. Is (Ident $"PRODUCT_TYPE") $"E_KERNEL" &. Has $".txt" (Lower File)) (Maybe $"odyssey" $"grs_e_kernel_structure");
   (* 564-572 *) mkRule (Is (Ident $"INSTRUMENT_HOST_NAME") $"VENUS EXPRESS" &. IsOneOf (Ident $"INSTRUMENT_ID") [$"VRA"] &. Is (Ident $"PRODUCT_TYPE") $"UDR" &. Not (Has $"ODF" File) &. Not (Has $"TNF" File) &. Not (Has $"RSR" File)) (Maybe $"vex_vera" $"udr_table_structure")].
(** checkers.py:577-701 *)
Definition check_special_position_rules : list rule :=
  [(* 591-597 *) mkRule (Is (Ident $"INSTRUMENT_ID") $"MARSIS" &. Has $" TEC " (Ident $"DATA_SET_NAME")) (Always $"mex" $"marsis_get_position");
   (* 599-611 *) mkRule ((Is (Ident $"INSTRUMENT_HOST_NAME") $"HUYGENS PROBE" &. Search (Ident $"FILE_NAME") [$"DARK"; $"STRIP"; $"VIS_EX"; $"SUN"; $"VISIBL"; $"TIME"; $"SOLAR"; $"IMAGE"]) |. ((Is (Ident $"INSTRUMENT_NAME") $"DESCENT IMAGER SPECTRAL RADIOMETER" &. Is (Ident $"PRODUCT_TYPE") $"RDR") &. IsOneOf Name [$"TABLE"; $"HEADER"])) (Always $"cassini" $"get_position");
   (* 612-619 *) mkRule (Has $"CO-V/E/J/S/SS-RPWS-" (Ident $"DATA_SET_ID") &. Is (Ident $"PRODUCT_TYPE") $"ANCILLARY" &. Is Name $"RPWS_TIME_ORDERED_TABLE") (Always $"cassini" $"rpws_ancil_position");
   (* 620-626 *) mkRule (Is (Ident $"DATA_SET_ID") $"LRO-L-RSS-1-TRACKING-V1.0" &. Is Name $"WEAREC_TABLE") (Maybe $"lro" $"rss_get_position");
   (* 627-634 *) mkRule (Is (Ident $"DATA_SET_ID") $"DIF-C-HRIV/MRI-5-HARTLEY2-SHAPE-V1.0" &. Is (Ident $"PRODUCT_ID") $"HARTLEY2-CARTESIAN-PLATE-MODEL" &. Has $"TABLE" Name) (Always $"epoxi" $"cart_model_get_position");
   (* 635-641 *) mkRule (Has $"MEX-M-MRS-5-OCC" (Ident $"DATA_SET_ID") &. Is Name $"ATM_TABLE") (Always $"mex" $"mrs_ddr_atmo_position");
   (* 642-648 *) mkRule (Is (Ident $"DATA_SET_ID") $"PHX-M-SSI-5-ATMOS-OPACITY-V1.0" &. Has $"HEADER" Name) (Always $"phoenix" $"phxao_header_position");
   (* 649-657 *) mkRule (Is (Ident $"INSTRUMENT_HOST_NAME") $"MARS EXPRESS" &. Is (Ident $"INSTRUMENT_ID") $"MRS" &. (Has $"ICL" (Ident $"PRODUCT_ID") &. Has $"L1B" (Ident $"PRODUCT_ID")) &. Is Name $"DOPPLER_TABLE") (Always $"mex" $"mrs_get_position");
   (* 658-666 *) mkRule (Is (Ident $"INSTRUMENT_HOST_NAME") $"MARS EXPRESS" &. Is (Ident $"INSTRUMENT_ID") $"MRS" &. (Has $"ODF" (Ident $"PRODUCT_ID") &. Has $"L02" (Ident $"PRODUCT_ID")) &. Is Name $"RANGING_TABLE") (Always $"mex" $"mrs_get_position");
   (* 667-678 *) mkRule (IsOneOf (Ident $"DATA_SET_ID") [$"ESO1M-SR-APPH-4-OCC-V1.0"; $"ESO22M-SR-APPH-4-OCC-V1.0"; $"IRTF-SR-URAC-4-OCC-V1.0"; $"PAL200-SR-CIRC-4-OCC-V1.0"; $"MCD27M-SR-IIRAR-4-OCC-V1.0"] &. Has $"GEOM" (Ident $"PRODUCT_ID") &. Is Name $"SERIES") (Always $"ground" $"ebrocc_geom_get_position");
   (* 679-686 *) mkRule (Is (Ident $"DATA_SET_ID") $"MRO-M-CRISM-5-RDR-MULTISPECTRAL-V1.0" &. Has $"MRRWV" (Ident $"PRODUCT_ID") &. Is Name $"TABLE") (Always $"mro" $"crism_mrdr_ancill_position");
   (* 687-693 *) mkRule (Is (Ident $"DATA_SET_ID") $"MSX-L-SPIRIT3-2/4-V1.0" &. Is Name $"ENVI_HEADER") (Always $"msx" $"cube_envi_header_position");
   (* 695-700 *) mkRule (Is (Ident $"INSTRUMENT_HOST_NAME") $"VENUS EXPRESS" &. IsOneOf (Ident $"INSTRUMENT_ID") [$"VRA"] &. Is (Ident $"PRODUCT_TYPE") $"UDR") (Maybe $"vex_vera" $"udr_table_special_position")].
(** checkers.py:704-745 *)
Definition check_special_sample_type_rules : list rule :=
  [(* 712-716 *) mkRule (Is (Ident $"DATA_SET_ID") $"JNO-J-JIRAM-3-RDR-V1.0" &. Is (Ident $"PRODUCT_TYPE") $"RDR") (Always $"juno" $"jiram_rdr_sample_type");
   (* 717-722 *) mkRule (Is (Ident $"INSTRUMENT_ID") $"LROC" &. Is (Ident $"PRODUCT_TYPE") $"EDR") (Always $"lroc" $"lroc_edr_sample_type");
   (* 723-728 *) mkRule (Is (Ident $"DATA_SET_ID") $"MGN-V-RDRS-5-GVDR-V1.0" &. Has $"GVANF" (Ident $"PRODUCT_ID") &. Has $"N/A" Sample) (Always $"mgn" $"gvanf_sample_type");
   (* 729-730 *) mkRule (Is (Ident $"DATA_SET_ID") $"LRO-L-CRAT-2-EDR-RAWDATA-V1.0") (Maybe $"lro" $"crater_bit_col_sample_type");
   (* 731-735 *) mkRule (Is (Ident $"SPACECRAFT_NAME") $"GALILEO_ORBITER" &. Has $"-NIMS-2-EDR-V1.0" (Ident $"DATA_SET_ID")) (Maybe $"galileo" $"nims_edr_sample_type");
   (* 736-740 *) mkRule (Is (Ident $"DATA_SET_ID") $"ULY-J-EPAC-4-SUMM-PHA-24HR-V1.0" &. Ends (Ident $"PRODUCT_ID") $"BIN") (Maybe $"ulysses" $"get_sample_type");
   (* 741-744 *) mkRule (Matches (Ident $"DATA_SET_ID") [[Lit $"CO-CAL-ISS"]; [Lit $"CO-"; Several $"S/EVJ-"; Lit $"ISSNA/ISSWA-2"]]) (Maybe $"cassini" $"line_prefix_sample_type")].
(** checkers.py:748-763 *)
Definition check_special_bit_column_case_rules : list rule :=
  [(* 756-762 *) mkRule (IsOneOf (Ident $"INSTRUMENT_NAME") [$"ALPHA PARTICLE X-RAYSPECTROMETER"; $"JOVIAN AURORAL PLASMA DISTRIBUTIONS EXPERIMENT"; $"CHEMISTRY AND MINERALOGY INSTRUMENT"; $"MARS ADVANCED RADAR FOR SUBSURFACE ANDIONOSPHERE SOUNDING"]) (Says $"MSB_BIT_STRING")].
(** checkers.py:766-777 *)
Definition check_special_bit_start_case_rules : list rule :=
  [(* 773-776 *) mkRule (Within (Ident $"INSTRUMENT_NAME") $"JOVIAN INFRARED AURORAL MAPPER") (Maybe $"juno" $"bit_start_find_and_fix")].
(** checkers.py:780-801 *)
Definition check_special_bit_format_rules : list rule :=
  [(* 791-794 *) mkRule (Matches (Ident $"DATA_SET_ID") [[Lit $"CO-CAL-ISS"]; [Lit $"CO-"; Several $"S/EVJ-"; Lit $"ISSNA/ISSWA-2"]]) (Maybe $"cassini" $"iss_telemetry_bit_col_format");
   (* 795-800 *) mkRule (Is (Ident $"SPACECRAFT_NAME") $"GALILEO ORBITER" &. IsOneOf (Ident $"INSTRUMENT_NAME") [$"SOLID_STATE_IMAGING"; $"SOLID STATE IMAGING SYSTEM"]) (Maybe $"galileo" $"ssi_redr_bit_col_format")].
(** checkers.py:815-1019 *)
Definition check_special_block_rules : list rule :=
  [(* 823-824 *) mkRule (Is Name $"XDR_DOCUMENT") (Always $"cassini" $"xdr_redirect_to_image_block");
   (* 825-826 *) mkRule (Is Name $"CHMN_HSK_HEADER_TABLE") (Always $"msl_cmn" $"fix_mangled_name");
   (* 827-833 *) mkRule (Starts (Ident $"DATA_SET_ID") $"JNO-E/J/SS" &. Has $"BSTFULL" (Ident $"DATA_SET_ID") &. Listed $"FREQ_OFFSET_TABLE" &. IsOneOf Name [$"FREQ_OFFSET_TABLE"; $"DATA_TABLE"]) (Always $"juno" $"waves_burst_fix_table_names");
   (* 834-841 *) mkRule (Is (Ident $"INSTRUMENT_ID") $"LAMP" &. Is (Ident $"PRODUCT_TYPE") $"RDR" &. Has $"IMAGE" Name &. Has $"HISTOGRAM" Name) (Always $"lro" $"lamp_rdr_histogram_image_loader");
   (* 842-848 *) mkRule (Is (Ident $"DATA_SET_ID") $"LRO-L-MRFLRO-5-GLOBAL-MOSAIC-V1.0" &. Has $"GLOBAL_S4_32PPD" (Label $"PRODUCT_ID") &. Is Name $"IMAGE") (Always $"lro" $"mini_rf_image_loader");
   (* 849-854 *) mkRule (Is (Ident $"DATA_SET_ID") $"PVO-V-ORPA-5-ELE/ION/PHOTO/UADS-V1.0" &. Has $"ORPA_LOW_RES" (Ident $"PRODUCT_ID") &. Is Name $"TABLE") (Always $"pvo" $"orpa_low_res_loader");
   (* 855-859 *) mkRule (Is (Ident $"DATA_SET_ID") $"PVO-V-OIMS-4-IONDENSITY-12S-V1.0" &. Is Name $"TABLE") (Always $"pvo" $"oims_12s_loader");
   (* 860-865 *) mkRule (Has $"GO-E-EPD-4-SUMM-" (Ident $"DATA_SET_ID") &. Has $"E1_" (Ident $"PRODUCT_ID") &. Is Name $"TIME_SERIES") (Always $"galileo" $"epd_special_block");
   (* 866-871 *) mkRule (Is (Ident $"INSTRUMENT_NAME") $"PLASMA WAVE RECEIVER" &. Has $"SUMM" (Ident $"DATA_SET_ID") &. (Is Name $"TIME_SERIES" |. Is Name $"TABLE")) (Always $"galileo" $"pws_special_block");
   (* 872-873 *) mkRule (Has $"ULY-J-EPAC-4-SUMM" (Ident $"DATA_SET_ID") &. Is Name $"TABLE") (Always $"ulysses" $"get_special_block");
   (* 874-879 *) mkRule (Has $"VG2-N-MAG-4-RDR-HGCOORDS" (Ident $"DATA_SET_ID") &. Is (Ident $"STANDARD_DATA_PRODUCT_ID") $"ASCII DATA" &. Is Name $"TABLE") (Always $"voyager" $"mag_special_block");
   (* 880-884 *) mkRule (Is (Ident $"DATA_SET_ID") $"VG2-SS-PLS-4-SUMM-1HR-AVG-V1.0" &. Is Name $"TABLE") (Maybe $"voyager" $"pls_avg_special_block");
   (* 885-889 *) mkRule (Is (Ident $"DATA_SET_ID") $"VG2-SS-PLS-3-RDR-FINE-RES-V1.0" &. Is Name $"TABLE") (Maybe $"voyager" $"pls_fine_special_block");
   (* 890-895 *) mkRule (Is (Ident $"DATA_SET_ID") $"VG2-U-PLS-5-SUMM-IONBR-48SEC-V1.0" &. Is (Ident $"PRODUCT_ID") $"SUMRY.DAT" &. Is Name $"TIME_SERIES") (Maybe $"voyager" $"pls_ionbr_special_block");
   (* 896-900 *) mkRule (Is (Ident $"DATA_SET_ID") $"M9-M-IRIS-3-RDR-V1.0" &. (Is Name $"SPECTRAL_SERIES" |. Has $"SPECTRUM" Name)) (Always $"mariner" $"get_special_block");
   (* 901-908 *) mkRule (Matches (Ident $"DATA_SET_ID") [[Lit $"IHW-C-MSNRDR-3-RDR-HALLEY-ETA-AQUAR-V1"; Any; Lit $"0"]; [Lit $"IHW-C-MSNRDR-3-RDR-HALLEY-ORIONID-V1"; Any; Lit $"0"]] &. Is Name $"TABLE") (Always $"ihw" $"get_special_block");
   (* 909-914 *) mkRule (Has $"VG2-" (Ident $"DATA_SET_ID") &. Has $"-PRA-3-RDR-LOWBAND-6SEC-V1.0" (Ident $"DATA_SET_ID") &. Is Name $"TABLE") (Maybe $"voyager" $"pra_special_block");
   (* 915-920 *) mkRule (Is (Ident $"DATA_SET_ID") $"PHX-M-MECA-2-NIEDR-V1.0" &. Matches (Ident $"PRODUCT_TYPE") [[Lit $"MECA-EM1"; OneOf $"012"]] &. Is Name $"WCHEM_TABLE") (Always $"phoenix" $"wcl_edr_special_block");
   (* 921-929 *) mkRule (Has $"MEX-M-PFS-2-EDR-" (Ident $"DATA_SET_ID") &. (Has $"RAW" (Ident $"PRODUCT_ID") |. Has $"HK" (Ident $"PRODUCT_ID")) &. Is Name $"TABLE") (Maybe $"mex" $"pfs_edr_special_block");
   (* 930-936 *) mkRule (Is (Ident $"INSTRUMENT_HOST_NAME") $"MARS EXPRESS" &. Is (Ident $"INSTRUMENT_ID") $"MRS" &. (Has $"ODF" (Ident $"PRODUCT_ID") &. Has $"L1B" (Ident $"PRODUCT_ID") &. Has $"RMP" (Ident $"PRODUCT_ID")) &. Has $"TABLE" Name) (Always $"mex" $"mrs_l1b_odf_rmp_redirect");
   (* 937-941 *) mkRule (Is (Ident $"DATA_SET_ID") $"WFF-E-ATM-1/5-V1.0" &. Is Name $"IMAGE") (Maybe $"ground" $"wff_atm_special_block");
   (* 942-948 *) mkRule (Is (Ident $"DATA_SET_ID") $"CO-CAL-ISS-2-V1.0" &. Is Name $"IMAGE" &. (Has $".DA" (LabelFirst $"^IMAGE") |. IsNumber (Ident $"FILE_RECORDS") 1025)) (Maybe $"cassini" $"iss_calib_da_special_block");
   (* 949-956 *) mkRule (IsOneOf (Ident $"DATA_SET_ID") [$"CO-S-ISSNA/ISSWA-2-EDR-V1.0"; $"CO-E/V/J-ISSNA/ISSWA-2-EDR-V1.0"; $"CO-CAL-ISSNA/ISSWA-2-EDR-V1.0"] &. IsOneOf Name [$"LINE_PREFIX_TABLE"; $"TELEMETRY_TABLE"]) (Maybe $"cassini" $"iss_edr_special_block");
   (* 957-961 *) mkRule (Is (Ident $"DATA_SET_ID") $"MGS-M-MOLA-3-PEDR-L1A-V1.0" &. Has $"TABLE" Name) (Always $"mgs" $"mola_pedr_special_block");
   (* 962-966 *) mkRule (Is (Ident $"DATA_SET_ID") $"IUE-C-SWP-3-EDR-IUECDB-V1.0" &. Is Name $"QUALITY_IMAGE") (Maybe $"iue" $"get_special_block");
   (* 967-972 *) mkRule (Is (Ident $"SPACECRAFT_NAME") $"GALILEO ORBITER" &. Is (Ident $"INSTRUMENT_NAME") $"SOLID STATE IMAGING SYSTEM" &. Is Name $"LINE_PREFIX_TABLE") (Always $"galileo" $"ssi_prefix_block");
   (* 973-980 *) mkRule (Is (Ident $"INSTRUMENT_HOST_NAME") $"MARS SCIENCE LABORATORY" &. IsOneOf (Ident $"INSTRUMENT_ID") [$"MAHLI"; $"MAST_RIGHT"; $"MAST_LEFT"; $"MARDI"] &. Has $"EDR" (Ident $"DATA_SET_ID") &. Is Name $"IMAGE") (Always $"msl_edr" $"get_special_block");
   (* 981-986 *) mkRule (Is (Ident $"INSTRUMENT_HOST_NAME") $"VENUS EXPRESS" &. IsOneOf (Ident $"INSTRUMENT_ID") [$"VRA"] &. Has $"1B_RMP_" (Ident $"PRODUCT_ID")) (Maybe $"vex_vera" $"get_special_block");
   (* 987-991 *) mkRule (Is (Ident $"DATA_SET_ID") $"SLN-L-GRS-5-NUCLIDE-MAP-V2.0" &. Is Name $"TABLE") (Always $"kaguya" $"get_special_block_grs_table");
   (* 992-997 *) mkRule (Has $"SLN-L-SP" (Ident $"DATA_SET_ID") &. Has $"LEVEL2B" (Ident $"DATA_SET_ID") &. Is Name $"ANCILLARY_AND_SUPPLEMENT_DATA") (Always $"kaguya" $"get_special_block_sp_2b_supp");
   (* 998-1002 *) mkRule (Has $"SLN-L-LMAG-5-MA-GRID" (Ident $"DATA_SET_ID") &. Is Name $"TABLE") (Always $"kaguya" $"get_special_grid_table_block");
   (* 1003-1007 *) mkRule (Is (Ident $"DATA_SET_ID") $"SLN-L-LMAG-5-1D-SIGMA-ECS-V1.0" &. Is Name $"TABLE") (Always $"kaguya" $"get_special_1d_sigma_block");
   (* 1008-1012 *) mkRule (Is (Ident $"DATA_SET_ID") $"SLN-L-LMAG-3-MAG-TS-V1.0" &. Is Name $"TABLE") (Always $"kaguya" $"get_special_mag_ts_block");
   (* 1013-1017 *) mkRule (Has $"SLN-L-RISE-5-TRAJ-" (Ident $"DATA_SET_ID") &. Is Name $"TABLE") (Always $"kaguya" $"rise_traj_special_block")].
(** checkers.py:1022-1144 *)
Definition check_trivial_case_rules : list rule :=
  [(* 1030-1034 *) mkRule (Is (Ident $"INSTRUMENT_ID") $"APXS" &. Has $"ERROR_CONTROL_TABLE" Name) (Maybe $"msl_apxs" $"table_loader");
   (* 1035-1040 *) mkRule (Is (Ident $"INSTRUMENT_NAME") $"TRIAXIAL FLUXGATE MAGNETOMETER" &. Is Name $"TABLE" &. Has $"-EDR-" (Ident $"DATA_SET_ID")) (Maybe $"galileo" $"galileo_table_loader");
   (* 1041-1046 *) mkRule (Is (Ident $"INSTRUMENT_NAME") $"CHEMISTRY CAMERA REMOTE MICRO-IMAGER" &. Is Name $"IMAGE_REPLY_TABLE") (Maybe $"msl_ccam" $"image_reply_table_loader");
   (* 1047-1050 *) mkRule (Starts (Ident $"DATA_SET_ID") $"ODY-M-THM-5" &. IsOneOf Name [$"HEADER"; $"HISTORY"]) (Maybe $"themis" $"trivial_themis_geo_loader");
   (* 1056-1062 *) mkRule (Is (Ident $"DATA_SET_ID") $"CO-CAL-ISS-2-V1.0" &. IsOneOf Name [$"TELEMETRY_TABLE"; $"LINE_PREFIX_TABLE"] &. IsNumber (Ident $"FILE_RECORDS") 1025) (Maybe $"cassini" $"iss_cal_trivial_loader");
   (* 1063-1068 *) mkRule (Is (Ident $"SPACECRAFT_NAME") $"MAGELLAN" &. (Ends File $".img" |. Ends File $".ibg") &. Is Name $"TABLE") (Maybe $"mgn" $"orbit_table_in_img_loader");
   (* 1069-1075 *) mkRule (Has $"GO-A-SSI-3-" (Ident $"DATA_SET_ID") &. Has $"-CALIMAGES-V1.0" (Ident $"DATA_SET_ID") &. Has $"QUB" (Ident $"PRODUCT_ID") &. Is Name $"HEADER") (Maybe $"galileo" $"ssi_cubes_header_loader");
   (* 1076-1077 *) mkRule (Is (Ident $"INSTRUMENT_ID") $"CHEMIN" &. Is Name $"HEADER") (Maybe $"msl_cmn" $"trivial_header_loader");
   (* 1078-1080 *) mkRule (Has $"MSL-M-SAM-" (Ident $"DATA_SET_ID") &. Has $"FILE" Name) (Maybe $"msl_cmn" $"trivial_header_loader");
   (* 1081-1086 *) mkRule (Is (Ident $"INSTRUMENT_ID") $"NIMS" &. Is (Ident $"SPACECRAFT_NAME") $"GALILEO_ORBITER" &. Is Name $"SAMPLE_SPECTRUM_QUBE") (Maybe $"galileo" $"nims_sample_spectral_qube_trivial_loader");
   (* 1087-1091 *) mkRule (Is (Ident $"DATA_SET_ID") $"BUGLAB-L-BUG-4-APOLLO-SAMPLES-V1.0" &. Is Name $"HEADER") (Maybe $"ground" $"trivial_header_loader");
   (* 1092-1096 *) mkRule (Is (Ident $"DATA_SET_ID") $"MSL-M-APXS-4/5-RDR-V1.0" &. Is Name $"HEADER") (Maybe $"msl_apxs" $"trivial_header_loader");
   (* 1097-1102 *) mkRule (Is (Ident $"INSTRUMENT_HOST_NAME") $"VENUS EXPRESS" &. IsOneOf (Ident $"INSTRUMENT_ID") [$"VRA"] &. Has $"1A_TNF" (Ident $"PRODUCT_ID")) (Maybe $"vex_vera" $"trvial_dsn_table");
   (* 1103-1108 *) mkRule (Is (Ident $"INSTRUMENT_HOST_NAME") $"VENUS EXPRESS" &. IsOneOf (Ident $"INSTRUMENT_ID") [$"VIRTIS"] &. Is Name $"HISTORY") (Maybe $"vex_virtis" $"trivial_history");
   (* 1109-1113 *) mkRule (Has $"MRO-M-MCS-5-DDR" (Ident $"DATA_SET_ID") &. Has $"V1.0" (Ident $"DATA_SET_ID")) (Maybe $"mro" $"mcs_ddr_oldformat_trivial");
   (* 1114-1118 *) mkRule (Is (Ident $"DATA_SET_ID") $"SLN-L-PACE-3-PBF1-V3.0" &. Is Name $"TIME_SERIES") (Maybe $"kaguya" $"pace_time_series_trivial");
   (* 1119-1123 *) mkRule (Has $"SLN-L-SP" (Ident $"DATA_SET_ID") &. Has $"L2D_RESULT_ARRAY" Name) (Maybe $"kaguya" $"sp_l2d_result_array_trivial");
   (* 1124-1128 *) mkRule (Is (Ident $"DATA_SET_ID") $"SLN-L-TC-4-DEM-ORTHO-V1.0" &. Is Name $"QA_FILENAME") (Maybe $"kaguya" $"sp_tc_filename_pointer_trivial");
   (* 1129-1133 *) mkRule (Is (Ident $"DATA_SET_ID") $"SLN-L-GRS-3-ENG-SPECTRUM-V1.0" &. Is Name $"TABLE") (Maybe $"kaguya" $"grs_eng_tables_trivial");
   (* 1134-1138 *) mkRule (Has $"CE3_BMYK_VNIS-CC_SCI_" File &. Is Name $"CAL_TARGET_DATA") (Maybe $"change" $"cal_target_data_trivial");
   (* 1139-1143 *) mkRule (Is (Ident $"SPACECRAFT_NAME") $"CE1" &. Has $"IMAGE_PREFIX" Name) (Maybe $"change" $"image_prefix_trivial")].
(** checkers.py:1158-1213 *)
Definition check_special_fn_rules : list rule :=
  [(* 1165-1169 *) mkRule (Is (Ident $"DATA_SET_ID") $"CLEM1-L-RSS-5-BSR-V1.0" &. IsOneOf Name [$"HEADER_TABLE"; $"DATA_TABLE"]) (Maybe $"clementine" $"get_fn");
   (* 1170-1175 *) mkRule (Is (Ident $"SPACECRAFT_NAME") $"MAGELLAN" &. (Ends File $".img" |. Ends File $"ibg") &. Is Name $"TABLE") (Maybe $"mgn" $"get_fn");
   (* 1177-1180 *) mkRule (Starts (Ident $"DATA_SET_ID") $"CO-D-CDA" &. Is Name $"TABLE") (Maybe $"cassini" $"cda_table_filename");
   (* 1182-1183 *) mkRule (Is (Ident $"INSTRUMENT_ID") $"THEMIS") (Maybe $"themis" $"check_gzip_fn");
   (* 1184-1193 *) mkRule (IsOneOf (Ident $"DATA_SET_ID") [$"NH-P-PEPSSI-4-PLASMA-V1.0"; $"NH-X-SWAP-5-DERIVED-SOLARWIND-V1.0"; $"NH-P/PSA-LORRI/ALICE/REX-5-ATMOS-V1.0"] &. Is Name $"SPREADSHEET") (Maybe $"nh" $"get_fn");
   (* 1194-1199 *) mkRule (Is (Ident $"SPACECRAFT_NAME") $"GALILEO ORBITER" &. Is (Ident $"INSTRUMENT_NAME") $"SOLID_STATE_IMAGING" &. Is Name $"IMAGE_LINE_PREFIX_TABLE") (Maybe $"galileo" $"ssi_redr_prefix_fn");
   (* 1200-1205 *) mkRule (Is (Ident $"DATA_SET_ID") $"VG2-SR/UR/NR-PPS-2/4-OCC-V1.0" &. Is (Ident $"PRODUCT_TYPE") $"JITTER" &. Is Name $"SERIES") (Maybe $"voyager" $"get_fn");
   (* 1206-1212 *) mkRule (Is (Ident $"INSTRUMENT_HOST_NAME") $"MARS SCIENCE LABORATORY" &. IsOneOf (Ident $"INSTRUMENT_ID") [$"MAHLI"; $"MAST_RIGHT"; $"MAST_LEFT"; $"MARDI"] &. Has $"EDR" (Ident $"DATA_SET_ID") &. Is Name $"IMAGE") (Maybe $"msl_edr" $"msl_msss_edr_prefix_fn")].
(** checkers.py:1216-1223 *)
Definition check_special_qube_band_storage_rules : list rule :=
  [(* 1221-1222 *) mkRule (Is (Ident $"INSTRUMENT_HOST_NAME") $"CASSINI_ORBITER") (Maybe $"cassini" $"get_special_qube_band_storage")].
(** checkers.py:1226-1275 *)
Definition check_special_fits_start_byte_rules : list rule :=
  [(* 1233-1238 *) mkRule (Is (Ident $"INSTRUMENT_HOST_NAME") $"DAWN" &. Has $"FC2" (Ident $"DATA_SET_ID") &. Is Name $"HISTORY") (Always $"dawn" $"dawn_history_hdu_exception");
   (* 1239-1243 *) mkRule (Starts (Ident $"DATA_SET_ID") $"HST-S-WFPC2-3-RPX" &. Has $"IMAGE" Name) (Always $"saturn_rpx" $"rpx_img_hdu_start_byte");
   (* 1244-1249 *) mkRule (Is (Ident $"INSTRUMENT_ID") $"HRIV" &. Is (Ident $"PRODUCT_TYPE") $"RADIANCE_DECONVOLVED" &. Starts Name $"EXT_MASK") (Always $"epoxi" $"hriv_deconv_mask_start_byte");
   (* 1250-1251 *) mkRule (Starts (Ident $"DATA_SET_ID") $"MSGR-H-MDIS-6-CAL") (Always $"galileo" $"mdis_fits_start_byte");
   (* 1252-1253 *) mkRule (Is (Ident $"DATA_SET_ID") $"MSSSO-J-CASPIR-3-RDR-SL9-STDS-V1.0") (Always $"ground" $"mssso_cal_start_byte");
   (* 1254-1255 *) mkRule (Has $"MEX-M-VMC-3-RDR" (Ident $"DATA_SET_ID")) (Always $"mex" $"vmc_rdr_hdu_selection");
   (* 1256-1260 *) mkRule (Is (Ident $"DATA_SET_ID") $"LRO-L-LAMP-2-EDR-V1.0" &. Has $"TABLE" Name) (Maybe $"lro" $"lamp_edr_hdu_exceptions");
   (* 1261-1264 *) mkRule (Is (Ident $"DATA_SET_ID") $"LRO-L-LAMP-3-RDR-V1.0") (Maybe $"lro" $"lamp_rdr_hdu_start_byte");
   (* 1265-1269 *) mkRule (Is (Ident $"PRODUCT_TYPE") $"RDR" &. Has $"JNO-J-UVS-3-RDR-" (Ident $"DATA_SET_ID")) (Always $"juno" $"uvs_rdr_start_byte");
   (* 1270-1274 *) mkRule (Is (Ident $"PRODUCT_TYPE") $"EDR" &. Has $"JNO-J-UVS-2-EDR-" (Ident $"DATA_SET_ID")) (Always $"juno" $"uvs_edr_start_byte")].
(** checkers.py:1319-1337 *)
Definition check_special_compressed_file_reader_rules : list rule :=
  [(* 1324-1330 *) mkRule (Is (Ident $"INSTRUMENT_HOST_NAME") $"MARS SCIENCE LABORATORY" &. IsOneOf (Ident $"INSTRUMENT_ID") [$"MAHLI"; $"MAST_RIGHT"; $"MAST_LEFT"; $"MARDI"] &. Has $"EDR" (Ident $"DATA_SET_ID")) (Always $"msl_edr" $"msl_edr_image_loader");
   (* 1331-1336 *) mkRule (Is (Ident $"SPACECRAFT_NAME") $"MARS_GLOBAL_SURVEYOR" &. IsOneOf (Ident $"INSTRUMENT_ID") [$"MOC-NA"; $"MOC-WA"] &. Has $"IMQ" (Ident $"FILE_NAME")) (Always $"mgs_moc" $"mgs_moc_comp_image_loader")].
(** checkers.py:1340-1407 *)
Definition check_special_pds4_cases_rules : list rule :=
  [(* 1346-1350 *) mkRule (Has $"CE6-L_GRAS_LMS-M" File &. Has $"SCI" File &. Has $".2B" File &. Is Name $"TABLE_0") (Maybe $"change" $"read_change_fw_table");
   (* 1351-1355 *) mkRule (Has $"CE6-L_GRAS_LMS-S" File &. Has $"SCI" File &. Has $".2B" File &. Is Name $"TABLE_0") (Maybe $"change" $"read_change_fw_table");
   (* 1356-1360 *) mkRule (Has $"CE6-L_GRAS_LMS-N" File &. Has $"SCI" File &. Has $".2B" File &. Is Name $"TABLE_0") (Maybe $"change" $"read_change_fw_table");
   (* 1361-1365 *) mkRule (Has $"CE5-L_GRAS_LMS-N" File &. Has $".2B" File &. Has $"SCI" File &. Is Name $"TABLE_0") (Maybe $"change" $"read_change_fw_table");
   (* 1366-1370 *) mkRule (Has $"CE5-L_GRAS_LMS-M" File &. Has $".2B" File &. Has $"SCI" File &. Is Name $"TABLE_0") (Maybe $"change" $"read_change_fw_table");
   (* 1371-1375 *) mkRule (Has $"CE4_GRAS_ASAN-SCI_SCI" File &. Has $".2B" File &. Is Name $"TABLE_0") (Maybe $"change" $"read_table_using_spaces");
   (* 1376-1380 *) mkRule (Has $"CE4_GRAS_LND-DPSL_SCI" File &. Has $".2A" File &. Is Name $"TABLE_0") (Maybe $"change" $"read_table_using_spaces");
   (* 1381-1385 *) mkRule (Has $"CE4_GRAS_LND-ThN_SCI" File &. Has $".2A" File &. Is Name $"TABLE_0") (Maybe $"change" $"read_table_using_spaces");
   (* 1386-1390 *) mkRule (Has $"CE4_GRAS_LND-TID_SCI" File &. Has $".2A" File &. Is Name $"TABLE_0") (Maybe $"change" $"read_table_using_spaces");
   (* 1397-1401 *) mkRule (Has $"CE4_GRAS_VNIS-SD_SCI" File &. Has $".2B" File &. Is Name $"TABLE_0") (Maybe $"change" $"read_change_fw_table");
   (* 1402-1406 *) mkRule (Has $"ch2_cla_l1_" File &. (Is Name $"header_Data" |. Is Name $"data")) (Maybe $"ch2_isro" $"read_class_fits_table")].
(** checkers.py:1410-1430 *)
Definition check_special_label_rules : list rule :=
  [(* 1417-1424 *) mkRule ((Has $"CE1" File |. Has $"CE2" File |. Has $"CE3" File) &. (Has $".1A" File |. Has $".1B" File |. Has $".1C" File |. Has $".2A" File |. Has $".2B" File |. Has $".2C" File |. Has $".3A" File |. Has $".3B" File |. Has $".3C" File |. Has $".01" File |. Has $".02" File |. Has $".03" File)) (Always $"change" $"special_label");
   (* 1425-1429 *) mkRule (Has $".TAB" File &. Has $"_DOY" File &. (Has $"MAG_" File |. Has $"BIO_" File) &. Has $"_V1" File) (Always $"vex_mag" $"special_label")].

(** ** The checkers *)
Inductive checker :=
  Offset | TableReader | Structure | Position | SampleType | BitColumn | BitStart | BitFormat | BlockOf | Trivial
| FileName | BandStorage | FitsStart | CompressedReader | Pds4 | LabelText.
Definition rules_of (c : checker) : list rule :=
  match c with
  | Offset => check_special_offset_rules
  | TableReader => check_special_table_reader_rules
  | Structure => check_special_structure_rules
  | Position => check_special_position_rules
  | SampleType => check_special_sample_type_rules
  | BitColumn => check_special_bit_column_case_rules
  | BitStart => check_special_bit_start_case_rules
  | BitFormat => check_special_bit_format_rules
  | BlockOf => check_special_block_rules
  | Trivial => check_trivial_case_rules
  | FileName => check_special_fn_rules
  | BandStorage => check_special_qube_band_storage_rules
  | FitsStart => check_special_fits_start_byte_rules
  | CompressedReader => check_special_compressed_file_reader_rules
  | Pds4 => check_special_pds4_cases_rules
  | LabelText => check_special_label_rules
  end.
(** which handler is called, if any.  check_trivial_case (970-1131) looks at [is_trivial] first:
    see Model/Dispatch *)
Definition check (c : checker) (p : asked) : res action := decide p (rules_of c).

(** formats/cassini.py [get_offset] and loaders/_helpers.py:49-64, of numbers; [size] is the size
    of the file.  Simplification: ROW_BYTES and ROWS that are not numbers are a TypeError *)
Definition cassini_get_offset (p : asked) (size : Z) : res Z :=
  match ident p $"ROW_BYTES" with
  | PInt row_bytes =>
      let row_bytes := if existsb (fun w => contains w (file p)) [$"ULVS_DDP"; $"DLIS_AZ_DDP"; $"DLV_DDP"] then row_bytes else row_bytes + 1 in
      match ident p $"ROWS" with PInt rows => Ok (size - rows * row_bytes) | _ => Err TypeError end
  | _ => Err TypeError
  end%Z.
