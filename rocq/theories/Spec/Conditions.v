(** What the conditions of special cases mean, and the code of pdr/formats that each question may
    lead to (formats/checkers.py names it in its answers). *)
From Coq Require Import QArith.
From Verif.Base Require Import Py Val.
From Verif.Model Require Import Checkers.
From Verif.Spec Require Import Checkers.

Section Meaning.
Variable p : asked.
Definition block_is (v : pv) (b : multidict) : Prop := v = PMulti b \/ v = PDict b.
(** the value that is looked at; what is not there has none *)
Inductive denotes : subject -> pv -> Prop :=
| d_ident f : denotes (Ident f) (ident p f)
| d_name : denotes Name (PStr (object p))
| d_file : denotes File (PStr (file p))
| d_lower x s : denotes x (PStr s) -> denotes (Lower x) (PStr (lower s))
| d_block b k v : block_is (block p) b -> md_get b k = Some v -> denotes (Block k) v
| d_inner b k c l v w : block_is (block p) b -> md_get b k = Some v -> block_is v c -> md_get c l = Some w -> denotes (BlockIn k l) w
| d_label f : denotes (Label f) (label p f)
| d_label_given f : label p f <> PNone -> denotes (LabelOr f) (label p f)
| d_label_missing f : label p f = PNone -> denotes (LabelOr f) (PStr [])
| d_first f v l : label p f = PTuple (v :: l) -> denotes (LabelFirst f) v
| d_first_char f c s : label p f = PStr (c :: s) -> denotes (LabelFirst f) (PStr [c])
| d_sample : denotes Sample (sample p).
(** texts that a regular expression stands for *)
Inductive fits : list piece -> str -> Prop :=
| fits_nil : fits [] []
| fits_lit w l s : fits l s -> fits (Lit w :: l) (w ++ s)
| fits_any c l s : c <> NL -> fits l s -> fits (Any :: l) (c :: s)
| fits_one c cs l s : In c cs -> fits l s -> fits (OneOf cs :: l) (c :: s)
| fits_several w cs l s : w <> [] -> Forall (fun c => In c cs) w -> fits l s -> fits (Several cs :: l) (w ++ s).
(** a word in a text, an element of a sequence or a key of a mapping *)
Definition has_word (w : str) (v : pv) : Prop :=
  (exists s, v = PStr s /\ mentions w s) \/ (exists l, (v = PTuple l \/ v = PSet l) /\ In (PStr w) l) \/ (exists b, block_is v b /\ In w (map fst b)).
Fixpoint meant (c : cond) : Prop :=
  match c with
  | Is x s => denotes x (PStr s)
  | IsOneOf x l => exists s, In s l /\ denotes x (PStr s)
  | IsNumber x n => denotes x (PInt n) \/ exists q, denotes x (PFloat q) /\ (q == inject_Z n)%Q
  | Has w x => exists v, denotes x v /\ has_word w v
  | Starts x s => exists t, denotes x (PStr (s ++ t))
  | Ends x s => exists t, denotes x (PStr (t ++ s))
  | Matches x l => exists r a b, In r l /\ fits r a /\ denotes x (PStr (a ++ b))
  | Search x words => exists w s, In w words /\ denotes x (PStr s) /\ mentions w s
  | Within x s => exists t, denotes x (PStr t) /\ mentions t s
  | Listed k => In k (listed p)
  | AtLeast n x => exists v q, denotes x v /\ to_float p v = Ok q /\ (inject_Z n <= q)%Q
  | AtMost n x => exists v q, denotes x v /\ to_float p v = Ok q /\ (q <= inject_Z n)%Q
  | Not c => ~ meant c
  | And a b => meant a /\ meant b
  | Or a b => meant a \/ meant b
  end.
End Meaning.

(** the answers to each question *)
Definition answers (c : checker) : list action :=
  match c with
  | Offset => [Maybe $"msl_cmn" $"get_offset"; Maybe $"clementine" $"get_offset"; Maybe $"themis" $"get_qube_offset";
      Maybe $"cassini" $"get_offset"; Maybe $"cassini" $"coiss_1006_offset"; Maybe $"lro" $"get_crater_offset";
      Maybe $"phoenix" $"phxao_table_offset"; Maybe $"phoenix" $"wcl_rdr_offset"; Maybe $"msl_rems" $"edr_offset";
      Maybe $"msl_edr" $"edr_offset"]
  | TableReader => [Always $"cassini" $"spreadsheet_loader"; Always $"msl_cmn" $"spreadsheet_loader"; Always $"msl_places" $"spreadsheet_loader";
      Always $"rosetta" $"rosetta_table_loader"; Always $"mgn" $"geom_table_loader"; Always $"mgn" $"occultation_loader";
      Always $"diviner" $"diviner_l4_table_loader"; Always $"galileo" $"pws_table_loader"; Always $"odyssey" $"map_table_loader";
      Always $"ulysses" $"gas_table_loader"; Always $"mro" $"mcs_ddr_table_loader"; Always $"mro" $"ancil_table_loader";
      Always $"ihw" $"curve_table_loader"; Always $"ihw" $"add_newlines_table_loader"; Always $"voyager" $"lecp_table_loader";
      Always $"voyager" $"lecp_vg1_sat_table_loader"; Always $"viking" $"seis_table_loader"; Always $"mex" $"aspera_table_loader";
      Always $"mer" $"rss_spreadsheet_loader"; Always $"phoenix" $"afm_table_loader"; Always $"mex" $"mrs_l1b_odf_table_loader";
      Always $"lro" $"mini_rf_spreadsheet_loader"; Always $"msl_rems" $"edr_table_loader"; Always $"msl_rems" $"rdr_table_loader";
      Always $"lro" $"wea_table_loader"; Always $"lp" $"ancillary_table_loader"; Maybe $"odyssey" $"grs_e_kernel_loader";
      Always $"vex_vera" $"udr_table_loader"; Always $"smart1_esa" $"spede_plasma40_table_reader"]
  | Structure => [Always $"clementine" $"get_structure"; Always $"mgs" $"get_odf_structure"; Always $"mgs" $"get_ecs_structure";
      Always $"cassini" $"get_structure"; Always $"galileo" $"probe_structure"; Always $"galileo" $"epd_structure";
      Always $"vega" $"get_structure"; Always $"vega" $"fix_array_structure"; Always $"mro" $"get_structure";
      Always $"voyager" $"get_structure"; Always $"ihw" $"get_structure"; Always $"phoenix" $"elec_em6_structure";
      Always $"phoenix" $"afm_rdr_structure"; Always $"phoenix" $"led_edr_structure"; Always $"phoenix" $"sc_rdr_structure";
      Always $"mex" $"aspera_ima_ddr_structure"; Always $"rosetta" $"midas_rdr_sps_structure"; Always $"rosetta" $"fix_pad_length_structure";
      Maybe $"galileo" $"ssi_redr_structure"; Maybe $"odyssey" $"grs_e_kernel_structure"; Maybe $"vex_vera" $"udr_table_structure"]
  | Position => [Always $"mex" $"marsis_get_position"; Always $"cassini" $"get_position"; Always $"cassini" $"rpws_ancil_position";
      Maybe $"lro" $"rss_get_position"; Always $"epoxi" $"cart_model_get_position"; Always $"mex" $"mrs_ddr_atmo_position";
      Always $"phoenix" $"phxao_header_position"; Always $"mex" $"mrs_get_position"; Always $"ground" $"ebrocc_geom_get_position";
      Always $"mro" $"crism_mrdr_ancill_position"; Always $"msx" $"cube_envi_header_position"; Maybe $"vex_vera" $"udr_table_special_position"]
  | SampleType => [Always $"juno" $"jiram_rdr_sample_type"; Always $"lroc" $"lroc_edr_sample_type"; Always $"mgn" $"gvanf_sample_type";
      Maybe $"lro" $"crater_bit_col_sample_type"; Maybe $"galileo" $"nims_edr_sample_type"; Maybe $"ulysses" $"get_sample_type";
      Maybe $"cassini" $"line_prefix_sample_type"]
  | BitColumn => [Says $"MSB_BIT_STRING"]
  | BitStart => [Maybe $"juno" $"bit_start_find_and_fix"]
  | BitFormat => [Maybe $"cassini" $"iss_telemetry_bit_col_format"; Maybe $"galileo" $"ssi_redr_bit_col_format"]
  | BlockOf => [Always $"cassini" $"xdr_redirect_to_image_block"; Always $"msl_cmn" $"fix_mangled_name"; Always $"juno" $"waves_burst_fix_table_names";
      Always $"lro" $"lamp_rdr_histogram_image_loader"; Always $"lro" $"mini_rf_image_loader"; Always $"pvo" $"orpa_low_res_loader";
      Always $"pvo" $"oims_12s_loader"; Always $"galileo" $"epd_special_block"; Always $"galileo" $"pws_special_block";
      Always $"ulysses" $"get_special_block"; Always $"voyager" $"mag_special_block"; Maybe $"voyager" $"pls_avg_special_block";
      Maybe $"voyager" $"pls_fine_special_block"; Maybe $"voyager" $"pls_ionbr_special_block"; Always $"mariner" $"get_special_block";
      Always $"ihw" $"get_special_block"; Maybe $"voyager" $"pra_special_block"; Always $"phoenix" $"wcl_edr_special_block";
      Maybe $"mex" $"pfs_edr_special_block"; Always $"mex" $"mrs_l1b_odf_rmp_redirect"; Maybe $"ground" $"wff_atm_special_block";
      Maybe $"cassini" $"iss_calib_da_special_block"; Maybe $"cassini" $"iss_edr_special_block"; Always $"mgs" $"mola_pedr_special_block";
      Maybe $"iue" $"get_special_block"; Always $"galileo" $"ssi_prefix_block"; Always $"msl_edr" $"get_special_block";
      Maybe $"vex_vera" $"get_special_block"; Always $"kaguya" $"get_special_block_grs_table"; Always $"kaguya" $"get_special_block_sp_2b_supp";
      Always $"kaguya" $"get_special_grid_table_block"; Always $"kaguya" $"get_special_1d_sigma_block"; Always $"kaguya" $"get_special_mag_ts_block";
      Always $"kaguya" $"rise_traj_special_block"]
  | Trivial => [Maybe $"msl_apxs" $"table_loader"; Maybe $"galileo" $"galileo_table_loader"; Maybe $"msl_ccam" $"image_reply_table_loader";
      Maybe $"themis" $"trivial_themis_geo_loader"; Maybe $"cassini" $"iss_cal_trivial_loader"; Maybe $"mgn" $"orbit_table_in_img_loader";
      Maybe $"galileo" $"ssi_cubes_header_loader"; Maybe $"msl_cmn" $"trivial_header_loader"; Maybe $"galileo" $"nims_sample_spectral_qube_trivial_loader";
      Maybe $"ground" $"trivial_header_loader"; Maybe $"msl_apxs" $"trivial_header_loader"; Maybe $"vex_vera" $"trvial_dsn_table";
      Maybe $"vex_virtis" $"trivial_history"; Maybe $"mro" $"mcs_ddr_oldformat_trivial"; Maybe $"kaguya" $"pace_time_series_trivial";
      Maybe $"kaguya" $"sp_l2d_result_array_trivial"; Maybe $"kaguya" $"sp_tc_filename_pointer_trivial"; Maybe $"kaguya" $"grs_eng_tables_trivial";
      Maybe $"change" $"cal_target_data_trivial"; Maybe $"change" $"image_prefix_trivial"]
  | FileName => [Maybe $"clementine" $"get_fn"; Maybe $"mgn" $"get_fn"; Maybe $"cassini" $"cda_table_filename";
      Maybe $"themis" $"check_gzip_fn"; Maybe $"nh" $"get_fn"; Maybe $"galileo" $"ssi_redr_prefix_fn";
      Maybe $"voyager" $"get_fn"; Maybe $"msl_edr" $"msl_msss_edr_prefix_fn"]
  | BandStorage => [Maybe $"cassini" $"get_special_qube_band_storage"]
  | FitsStart => [Always $"dawn" $"dawn_history_hdu_exception"; Always $"saturn_rpx" $"rpx_img_hdu_start_byte"; Always $"epoxi" $"hriv_deconv_mask_start_byte";
      Always $"galileo" $"mdis_fits_start_byte"; Always $"ground" $"mssso_cal_start_byte"; Always $"mex" $"vmc_rdr_hdu_selection";
      Maybe $"lro" $"lamp_edr_hdu_exceptions"; Maybe $"lro" $"lamp_rdr_hdu_start_byte"; Always $"juno" $"uvs_rdr_start_byte";
      Always $"juno" $"uvs_edr_start_byte"]
  | CompressedReader => [Always $"msl_edr" $"msl_edr_image_loader"; Always $"mgs_moc" $"mgs_moc_comp_image_loader"]
  | Pds4 => [Maybe $"change" $"read_change_fw_table"; Maybe $"change" $"read_table_using_spaces"; Maybe $"ch2_isro" $"read_class_fits_table"]
  | LabelText => [Always $"change" $"special_label"; Always $"vex_mag" $"special_label"]
  end.
(** what is read for Huygens: all rows from here to the end of a file of [size] bytes; the rows of all
    but three files have one byte more than the label says *)
Definition huygens_rows (file : str) (row_bytes : Z) : Z -> Prop :=
  fun w => ((exists n, In n [$"ULVS_DDP"; $"DLIS_AZ_DDP"; $"DLV_DDP"] /\ mentions n file) -> w = row_bytes) /\
           (~ (exists n, In n [$"ULVS_DDP"; $"DLIS_AZ_DDP"; $"DLV_DDP"] /\ mentions n file) -> w = row_bytes + 1)%Z.
