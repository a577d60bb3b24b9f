(** Which missions and instruments the special cases of pdr/formats are for, written down from
    the names of its modules and the documentation of the archives, and what it is for a
    product to be theirs. *)
From Verif.Base Require Import Py Val.
From Verif.Model Require Import Checkers.

(** What tells that a product is of a mission: an identifier of its label is this text, or
    mentions it; the path of its file mentions it.  The last two are not about missions: the
    object has this name; an identifier is a part of this text. *)
Inductive mark := Equals (f w : str) | Mentions (f w : str) | InPath (w : str) | ObjectIs (w : str) | PartOf (f w : str).
Definition mentions (w s : str) : Prop := exists a b, s = a ++ w ++ b.
Definition bears (p : asked) (k : mark) : Prop :=
  match k with
  | Equals f w => ident p f = PStr w
  | Mentions f w => exists s, ident p f = PStr s /\ mentions w s
  | InPath w => mentions w (file p)
  | ObjectIs w => object p = w
  | PartOf f w => exists s, ident p f = PStr s /\ mentions s w
  end.
Definition data_set := Mentions $"DATA_SET_ID".
Definition host := Equals $"INSTRUMENT_HOST_NAME".
Definition craft := Equals $"SPACECRAFT_NAME".
Definition instrument := Equals $"INSTRUMENT_NAME".
Definition instrument_id := Equals $"INSTRUMENT_ID".

(** the marks of the products each module of pdr/formats is for *)
Definition missions : list (str * list mark) :=
  [($"cassini", [data_set $"CO-"; host $"CASSINI ORBITER"; host $"CASSINI_ORBITER"; host $"HUYGENS PROBE"; instrument $"DESCENT IMAGER SPECTRAL RADIOMETER"]);
   ($"ch2_isro", [InPath $"ch2_cla_l1_"]);
   ($"change", [craft $"CE1"; InPath $"CE1"; InPath $"CE2"; InPath $"CE3"; InPath $"CE4_GRAS_"; InPath $"CE5-L_GRAS_"; InPath $"CE6-L_GRAS_"]);
   ($"clementine", [data_set $"CLEM1-"]);
   ($"dawn", [host $"DAWN"]);
   ($"diviner", [instrument_id $"DLRE"]);
   ($"epoxi", [data_set $"DIF-C-HRIV/MRI-"; instrument_id $"HRIV"]);
   (* with the camera of MESSENGER, which reuses one of its handlers *)
   ($"galileo", [data_set $"GO-"; data_set $"GP-J-"; craft $"GALILEO ORBITER"; craft $"GALILEO_ORBITER"; instrument $"PLASMA WAVE RECEIVER";
                 instrument $"TRIAXIAL FLUXGATE MAGNETOMETER"; data_set $"MSGR-H-MDIS-"]);
   ($"ground", [data_set $"ESO1M-SR-"; data_set $"ESO22M-SR-"; data_set $"IRTF-SR-"; data_set $"PAL200-SR-"; data_set $"MCD27M-SR-"; data_set $"WFF-E-ATM-";
                data_set $"BUGLAB-L-BUG-"; data_set $"MSSSO-J-CASPIR-"]);
   ($"ihw", [data_set $"IHW-C-"; data_set $"ICE-C-"]);
   ($"iue", [data_set $"IUE-C-"]);
   ($"juno", [data_set $"JNO-"]);
   ($"kaguya", [data_set $"SLN-L-"]);
   ($"lp", [host $"LUNAR PROSPECTOR"]);
   ($"lro", [data_set $"LRO-L-"; host $"LUNAR RECONNAISSANCE ORBITER"; instrument_id $"CRAT"; instrument_id $"LAMP"]);
   ($"lroc", [instrument_id $"LROC"]);
   ($"mariner", [data_set $"M9-M-"]);
   ($"mer", [data_set $"MER1-M-"; data_set $"MER2-M-"]);
   ($"mex", [data_set $"MEX-"; host $"MARS EXPRESS"; instrument_id $"MARSIS"]);
   (* with the Galileo tables that are read in the same way *)
   ($"mgn", [data_set $"MGN-V-"; craft $"MAGELLAN"; data_set $"GO-J-NIMS-4-ADR-SL9IMPACT-"]);
   ($"mgs", [data_set $"MGS-M-"; host $"MARS GLOBAL SURVEYOR"]);
   ($"mgs_moc", [craft $"MARS_GLOBAL_SURVEYOR"]);
   ($"mro", [data_set $"MRO-M-"; instrument_id $"CRISM"]);
   ($"msl_apxs", [instrument_id $"APXS"; data_set $"MSL-M-APXS-"]);
   ($"msl_ccam", [instrument $"CHEMISTRY CAMERA REMOTE MICRO-IMAGER"]);
   ($"msl_cmn", [instrument_id $"CHEMIN"; data_set $"MSL-M-SAM-"]);
   ($"msl_edr", [host $"MARS SCIENCE LABORATORY"]);
   ($"msl_places", [data_set $"MSL-M-ROVER-"]);
   ($"msl_rems", [host $"MARS SCIENCE LABORATORY"]);
   ($"msx", [data_set $"MSX-L-SPIRIT3-"]);
   ($"nh", [data_set $"NH-"]);
   ($"odyssey", [data_set $"ODY-M-GRS-"]);
   ($"phoenix", [data_set $"PHX-M-"]);
   ($"pvo", [data_set $"PVO-V-"]);
   ($"rosetta", [instrument $"ROSETTA PLASMA CONSORTIUM - MUTUAL IMPEDANCE PROBE"; data_set $"-MIDAS-3-"; Mentions $"DATA_SET_NAME" $"ROSETTA"]);
   ($"saturn_rpx", [data_set $"HST-S-WFPC2-3-RPX"]);
   ($"smart1_esa", [instrument_id $"SPEDE"]);
   ($"themis", [instrument_id $"THEMIS"; data_set $"ODY-M-THM-"]);
   ($"ulysses", [data_set $"ULY-J-"]);
   ($"vega", [data_set $"VEGA"; data_set $"GIO-C-PIA-"]);
   ($"vex_mag", [InPath $"_DOY"]);
   ($"vex_vera", [host $"VENUS EXPRESS"]);
   ($"vex_virtis", [host $"VENUS EXPRESS"]);
   ($"viking", [data_set $"VL2-M-"]);
   ($"voyager", [data_set $"VG1-"; data_set $"VG2-"])].
(** the handlers that are called for other products, too, and for which ones *)
Definition strays : list (str * str * list mark) :=
  [($"cassini", $"get_offset",
      [instrument $"DESCENT IMAGER SPECTRAL RADIOMETER"; Mentions $"FILE_NAME" $"STRIP"; Mentions $"FILE_NAME" $"VISIBL"; Mentions $"FILE_NAME" $"IMAGE";
       Mentions $"FILE_NAME" $"IR_"; Mentions $"FILE_NAME" $"TIME"; Mentions $"FILE_NAME" $"SUN"; Mentions $"FILE_NAME" $"SOLAR"]);
   ($"cassini", $"xdr_redirect_to_image_block", [ObjectIs $"XDR_DOCUMENT"]);
   ($"msl_cmn", $"fix_mangled_name", [ObjectIs $"CHMN_HSK_HEADER_TABLE"]);
   ($"juno", $"bit_start_find_and_fix", [PartOf $"INSTRUMENT_NAME" $"JOVIAN INFRARED AURORAL MAPPER"])].
(** the instruments whose bit columns are always most significant bit first *)
Definition msb_instruments : list mark :=
  map instrument [$"ALPHA PARTICLE X-RAYSPECTROMETER"; $"JOVIAN AURORAL PLASMA DISTRIBUTIONS EXPERIMENT"; $"CHEMISTRY AND MINERALOGY INSTRUMENT";
                  $"MARS ADVANCED RADAR FOR SUBSURFACE ANDIONOSPHERE SOUNDING"].

Definition stray (m f : str) : Prop := exists marks, In (m, f, marks) strays.
(** a product of one of the missions of a module *)
Definition of_mission (p : asked) (m : str) : Prop := exists marks k, In (m, marks) missions /\ In k marks /\ bears p k.
(** a product that has nothing special about it.  The fourth of the strays is about bit columns only. *)
Definition ordinary (p : asked) : Prop :=
  (forall m, ~ of_mission p m) /\ (forall m f marks k, In (m, f, marks) strays -> m <> $"juno" -> In k marks -> ~ bears p k) /\ (forall k, In k msb_instruments -> ~ bears p k).
(** identifiers that are texts, numbers or missing, as C10 has them *)
Definition scalar (v : pv) : Prop := match v with PTuple _ | PSet _ | PDict _ | PMulti _ => False | _ => True end.
Definition fields : list str :=
  [$"DATA_SET_ID"; $"DATA_SET_NAME"; $"DATA_QUALITY_DESC"; $"FILE_NAME"; $"FILE_RECORDS"; $"INSTRUMENT_ID"; $"INSTRUMENT_HOST_NAME"; $"INSTRUMENT_NAME"; $"LABEL_RECORDS";
   $"NOTE"; $"PRODUCT_ID"; $"PRODUCT_TYPE"; $"RECORD_BYTES"; $"RECORD_TYPE"; $"ROW_BYTES"; $"ROWS"; $"SPACECRAFT_NAME"; $"STANDARD_DATA_PRODUCT_ID"].
Definition scalars (p : asked) : Prop := forall f, In f fields -> scalar (ident p f).
(** the identifiers every product is searched for *)
Definition searched : list str := [$"DATA_SET_ID"; $"DATA_SET_NAME"; $"FILE_NAME"; $"INSTRUMENT_NAME"].
Definition texts (p : asked) : Prop := forall f, In f searched -> exists s, ident p f = PStr s.
