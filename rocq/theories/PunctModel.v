(* The facets of numpunct_c: include/strf/detail/facets/numpunct.hpp:425-630, and the predefined ones,
   665-970 (extracted by script). *)
From Coq Require Import String List.
From Verif Require Import Base GroupModel.
Import ListNotations.

(* ---- numpunct<Base>, 425-514 ---- *)
Record numpunct := mk_numpunct { np_grouping : Z; np_point : Z; np_sep : Z }.
Definition numpunct_default : numpunct := mk_numpunct grouping_empty 46 44.         (* 432, 510-513 *)
Definition numpunct_args (args : list Z) : option numpunct :=                       (* 434-438 *)
  do g <- grouping_of_args args ; Some (mk_numpunct g 46 44).
Definition numpunct_of (g : Z) : numpunct := mk_numpunct g 46 44.                   (* 440-443 *)
Inductive np_call := SetGrouping (g : Z) | SetSep (c : Z) | SetPoint (c : Z).
(* 459-468, 485-494, 499-508: both the & and the && overloads *)
Definition np_apply (p : numpunct) (q : np_call) : numpunct :=
  match q with
  | SetGrouping g => mk_numpunct g (np_point p) (np_sep p)
  | SetSep c => mk_numpunct (np_grouping p) (np_point p) c
  | SetPoint c => mk_numpunct (np_grouping p) c (np_sep p)
  end.
(* a chain of calls on the facet *)
Definition np_applies (p : numpunct) (qs : list np_call) : numpunct := fold_left np_apply qs p.
Definition np_eq (a b : numpunct) : bool :=                                         (* 445-454 *)
  (np_grouping a =? np_grouping b) && (np_point a =? np_point b) && (np_sep a =? np_sep b).

(* ---- no_grouping<Base>, 562-617: decimal_point_ has no initialiser; None is an indeterminate value ---- *)
Definition no_grouping := option Z.
(* numpunct.hpp:562-617: default-initialised *)
Definition ng_declared : no_grouping := None.        (* no_grouping<B> x; *)
Definition ng_braces : no_grouping := Some 0.        (* no_grouping<B>{}: value-initialised *)
Definition ng_set_point (p : no_grouping) (c : Z) : no_grouping := Some c.          (* 604-613 *)
Definition ng_eq (a b : no_grouping) : option bool := do x <- a ; do y <- b ; Some (x =? y).   (* 568-575 *)

(* ---- what the printers ask a facet: grouping, decimal_point, thousands_sep, distribute,
   any_group_separation, thousands_sep_count ---- *)
Record observed := mk_observed { ob_grouping : Z; ob_point : Z; ob_sep : Z;
  ob_distribute : Z -> option distribution; ob_any : Z -> bool; ob_count : Z -> option Z }.
Definition np_observed (p : numpunct) : observed :=                                 (* 455-458, 469-484, 495-498 *)
  mk_observed (np_grouping p) (np_point p) (np_sep p) (distribute (np_grouping p)) (any_separator (np_grouping p)) (separators_count (np_grouping p)).
Definition default_observed : observed :=                                           (* 516-553 default_numpunct *)
  mk_observed grouping_empty 46 44 (fun n => Some (mk_dist 0 0 n)) (fun _ => false) (fun _ => Some 0).
Definition ng_observed (p : no_grouping) : observed :=                              (* 576-599: decimal_point() is U'.' *)
  mk_observed grouping_empty 46 44 (fun n => Some (mk_dist 0 0 n)) (fun _ => false) (fun _ => Some 0).
(* 554-557, 600-603 the conversions to numpunct<Base> *)
Definition default_to_numpunct : numpunct := numpunct_default.
(* numpunct.hpp:600-603 *)
Definition ng_to_numpunct (p : no_grouping) : numpunct := numpunct_default.

(* ---- the predefined facets: name, constructor arguments, calls ---- *)
Definition predefined : list (string * list Z * list np_call) := [
  ("aa_DJ", [], [SetPoint 46]);
  ("aa_ER", [], [SetPoint 46]);
  ("aa_ET", [3], [SetPoint 46; SetSep 44]);
  ("af_ZA", [3], [SetPoint 46; SetSep 44]);
  ("agr_PE", [3], [SetPoint 44; SetSep 46]);
  ("ak_GH", [3], [SetPoint 46; SetSep 44]);
  ("am_ET", [3], [SetPoint 46; SetSep 44]);
  ("an_ES", [3], [SetPoint 44; SetSep 46]);
  ("anp_IN", [3], [SetPoint 46; SetSep 44]);
  ("ar_AE", [3], [SetPoint 46; SetSep 44]);
  ("ar_BH", [3], [SetPoint 46; SetSep 44]);
  ("ar_DZ", [3], [SetPoint 46; SetSep 44]);
  ("ar_EG", [3], [SetPoint 46; SetSep 44]);
  ("ar_IN", [3], [SetPoint 46; SetSep 44]);
  ("ar_IQ", [3], [SetPoint 46; SetSep 44]);
  ("ar_JO", [3], [SetPoint 46; SetSep 44]);
  ("ar_KW", [3], [SetPoint 46; SetSep 44]);
  ("ar_LB", [3], [SetPoint 46; SetSep 44]);
  ("ar_LY", [3], [SetPoint 46; SetSep 44]);
  ("ar_MA", [3], [SetPoint 46; SetSep 44]);
  ("ar_OM", [3], [SetPoint 46; SetSep 44]);
  ("ar_QA", [3], [SetPoint 46; SetSep 44]);
  ("ar_SA", [], [SetPoint 46]);
  ("ar_SD", [3], [SetPoint 46; SetSep 44]);
  ("ar_SS", [3], [SetPoint 46; SetSep 44]);
  ("ar_SY", [3], [SetPoint 46; SetSep 44]);
  ("ar_TN", [3], [SetPoint 46; SetSep 44]);
  ("ar_YE", [3], [SetPoint 46; SetSep 44]);
  ("as_IN", [3;2], [SetPoint 46; SetSep 44]);
  ("ast_ES", [3], [SetPoint 44; SetSep 46]);
  ("ayc_PE", [3], [SetPoint 44; SetSep 46]);
  ("az_AZ", [3], [SetPoint 44; SetSep 46]);
  ("az_IR", [3], [SetPoint 46; SetSep 44]);
  ("be_BY", [3], [SetPoint 44; SetSep 46]);
  ("bem_ZM", [3], [SetPoint 46; SetSep 44]);
  ("ber_DZ", [3], [SetPoint 46; SetSep 44]);
  ("ber_MA", [3], [SetPoint 46; SetSep 44]);
  ("bg_BG", [3], [SetPoint 44; SetSep 8239]);
  ("bhb_IN", [3], [SetPoint 46; SetSep 44]);
  ("bho_IN", [3], [SetPoint 46; SetSep 44]);
  ("bho_NP", [3], [SetPoint 46; SetSep 44]);
  ("bi_VU", [3], [SetPoint 46; SetSep 44]);
  ("bn_BD", [3;2], [SetPoint 46; SetSep 44]);
  ("bn_IN", [3;2], [SetPoint 46; SetSep 44]);
  ("bo_CN", [3], [SetPoint 46; SetSep 44]);
  ("bo_IN", [3], [SetPoint 46; SetSep 44]);
  ("br_FR", [3], [SetPoint 44; SetSep 8239]);
  ("brx_IN", [3], [SetPoint 46; SetSep 44]);
  ("bs_BA", [], [SetPoint 44]);
  ("byn_ER", [], [SetPoint 46]);
  ("C", [], [SetPoint 46]);
  ("ca_AD", [], [SetPoint 44]);
  ("ca_ES", [], [SetPoint 44]);
  ("ca_FR", [], [SetPoint 44]);
  ("ca_IT", [], [SetPoint 44]);
  ("ce_RU", [3], [SetPoint 44; SetSep 8239]);
  ("chr_US", [3], [SetPoint 46; SetSep 44]);
  ("ckb_IQ", [3], [SetPoint 46; SetSep 44]);
  ("cmn_TW", [4], [SetPoint 46; SetSep 44]);
  ("crh_UA", [3], [SetPoint 44; SetSep 46]);
  ("csb_PL", [3], [SetPoint 44; SetSep 8239]);
  ("cs_CZ", [3], [SetPoint 44; SetSep 8239]);
  ("cv_RU", [3], [SetPoint 44; SetSep 8239]);
  ("cy_GB", [3], [SetPoint 46; SetSep 44]);
  ("da_DK", [3], [SetPoint 44; SetSep 46]);
  ("de_AT", [3], [SetPoint 44; SetSep 46]);
  ("de_BE", [3], [SetPoint 44; SetSep 46]);
  ("de_CH", [3], [SetPoint 46; SetSep 39]);
  ("de_DE", [3], [SetPoint 44; SetSep 46]);
  ("de_IT", [3], [SetPoint 44; SetSep 46]);
  ("de_LI", [3], [SetPoint 46; SetSep 39]);
  ("de_LU", [3], [SetPoint 44; SetSep 46]);
  ("doi_IN", [3], [SetPoint 46; SetSep 44]);
  ("dv_MV", [3], [SetPoint 46; SetSep 44]);
  ("dz_BT", [3;2], [SetPoint 46; SetSep 44]);
  ("el_CY", [], [SetPoint 44]);
  ("el_GR", [], [SetPoint 44]);
  ("en_AG", [3], [SetPoint 46; SetSep 44]);
  ("en_AU", [3], [SetPoint 46; SetSep 44]);
  ("en_BW", [3], [SetPoint 46; SetSep 44]);
  ("en_CA", [3], [SetPoint 46; SetSep 44]);
  ("en_DK", [3], [SetPoint 44; SetSep 46]);
  ("en_GB", [3], [SetPoint 46; SetSep 44]);
  ("en_HK", [3], [SetPoint 46; SetSep 44]);
  ("en_IE", [3], [SetPoint 46; SetSep 44]);
  ("en_IL", [3], [SetPoint 46; SetSep 44]);
  ("en_IN", [3;2], [SetPoint 46; SetSep 44]);
  ("en_NG", [3], [SetPoint 46; SetSep 44]);
  ("en_NZ", [3], [SetPoint 46; SetSep 44]);
  ("en_PH", [3], [SetPoint 46; SetSep 44]);
  ("en_SC", [3], [SetPoint 46; SetSep 44]);
  ("en_SG", [3], [SetPoint 46; SetSep 44]);
  ("en_US", [3], [SetPoint 46; SetSep 44]);
  ("en_ZA", [3], [SetPoint 46; SetSep 44]);
  ("en_ZM", [3], [SetPoint 46; SetSep 44]);
  ("en_ZW", [3], [SetPoint 46; SetSep 44]);
  ("eo", [], [SetPoint 44]);
  ("eo_US", [3], [SetPoint 46; SetSep 44]);
  ("es_AR", [3], [SetPoint 44; SetSep 46]);
  ("es_BO", [3], [SetPoint 44; SetSep 46]);
  ("es_CL", [3], [SetPoint 44; SetSep 46]);
  ("es_CO", [3], [SetPoint 44; SetSep 46]);
  ("es_CR", [3], [SetPoint 44; SetSep 8239]);
  ("es_CU", [], [SetPoint 44]);
  ("es_DO", [3], [SetPoint 46; SetSep 44]);
  ("es_EC", [3], [SetPoint 44; SetSep 46]);
  ("es_ES", [3], [SetPoint 44; SetSep 46]);
  ("es_GT", [3], [SetPoint 46; SetSep 44]);
  ("es_HN", [3], [SetPoint 46; SetSep 44]);
  ("es_MX", [3], [SetPoint 46; SetSep 8239]);
  ("es_NI", [3], [SetPoint 46; SetSep 44]);
  ("es_PA", [3], [SetPoint 46; SetSep 44]);
  ("es_PE", [3], [SetPoint 44; SetSep 46]);
  ("es_PR", [3], [SetPoint 46; SetSep 44]);
  ("es_PY", [3], [SetPoint 44; SetSep 46]);
  ("es_SV", [3], [SetPoint 46; SetSep 44]);
  ("es_US", [3], [SetPoint 46; SetSep 44]);
  ("es_UY", [3], [SetPoint 44; SetSep 46]);
  ("es_VE", [3], [SetPoint 44; SetSep 46]);
  ("et_EE", [3], [SetPoint 44; SetSep 8239]);
  ("eu_ES", [3], [SetPoint 44; SetSep 46]);
  ("eu_FR", [3], [SetPoint 44; SetSep 8239]);
  ("fa_IR", [3], [SetPoint 46; SetSep 44]);
  ("ff_SN", [3], [SetPoint 44; SetSep 46]);
  ("fi_FI", [3], [SetPoint 44; SetSep 8239]);
  ("fil_PH", [3], [SetPoint 46; SetSep 44]);
  ("fo_FO", [3], [SetPoint 44; SetSep 46]);
  ("fr_BE", [3], [SetPoint 44; SetSep 46]);
  ("fr_CA", [3], [SetPoint 44; SetSep 8239]);
  ("fr_CH", [3], [SetPoint 46; SetSep 39]);
  ("fr_FR", [3], [SetPoint 44; SetSep 8239]);
  ("fr_LU", [3], [SetPoint 44; SetSep 8239]);
  ("fur_IT", [3], [SetPoint 44; SetSep 46]);
  ("fy_DE", [3], [SetPoint 44; SetSep 46]);
  ("fy_NL", [], [SetPoint 44]);
  ("ga_IE", [3], [SetPoint 46; SetSep 44]);
  ("gd_GB", [3], [SetPoint 46; SetSep 44]);
  ("gez_ER", [], [SetPoint 46]);
  ("gez_ET", [3], [SetPoint 46; SetSep 44]);
  ("gl_ES", [], [SetPoint 44]);
  ("gu_IN", [3], [SetPoint 46; SetSep 44]);
  ("gv_GB", [3], [SetPoint 46; SetSep 44]);
  ("hak_TW", [4], [SetPoint 46; SetSep 44]);
  ("ha_NG", [3], [SetPoint 46; SetSep 44]);
  ("he_IL", [3], [SetPoint 46; SetSep 44]);
  ("hif_FJ", [3], [SetPoint 46; SetSep 44]);
  ("hi_IN", [3], [SetPoint 46; SetSep 44]);
  ("hne_IN", [3], [SetPoint 46; SetSep 44]);
  ("hr_HR", [3], [SetPoint 44; SetSep 8239]);
  ("hsb_DE", [3], [SetPoint 44; SetSep 46]);
  ("ht_HT", [3], [SetPoint 44; SetSep 8239]);
  ("hu_HU", [3], [SetPoint 44; SetSep 46]);
  ("hy_AM", [3], [SetPoint 46; SetSep 44]);
  ("ia_FR", [3], [SetPoint 44; SetSep 8239]);
  ("id_ID", [3], [SetPoint 44; SetSep 46]);
  ("ig_NG", [3], [SetPoint 46; SetSep 44]);
  ("ik_CA", [3], [SetPoint 46; SetSep 44]);
  ("is_IS", [3], [SetPoint 44; SetSep 46]);
  ("it_CH", [3], [SetPoint 46; SetSep 39]);
  ("it_IT", [3], [SetPoint 44; SetSep 46]);
  ("iu_CA", [3], [SetPoint 46; SetSep 44]);
  ("ja_JP", [3], [SetPoint 46; SetSep 44]);
  ("kab_DZ", [3], [SetPoint 44; SetSep 8239]);
  ("ka_GE", [3], [SetPoint 44; SetSep 46]);
  ("kk_KZ", [3], [SetPoint 44; SetSep 8239]);
  ("kl_GL", [3], [SetPoint 44; SetSep 46]);
  ("km_KH", [3], [SetPoint 46; SetSep 44]);
  ("kn_IN", [3], [SetPoint 46; SetSep 44]);
  ("kok_IN", [3], [SetPoint 46; SetSep 44]);
  ("ko_KR", [3], [SetPoint 46; SetSep 44]);
  ("ks_IN", [3], [SetPoint 46; SetSep 44]);
  ("ku_TR", [3], [SetPoint 44; SetSep 46]);
  ("kw_GB", [3], [SetPoint 46; SetSep 44]);
  ("ky_KG", [3], [SetPoint 44; SetSep 8239]);
  ("lb_LU", [3], [SetPoint 44; SetSep 46]);
  ("lg_UG", [3], [SetPoint 46; SetSep 44]);
  ("li_BE", [3], [SetPoint 44; SetSep 46]);
  ("lij_IT", [3], [SetPoint 44; SetSep 46]);
  ("li_NL", [], [SetPoint 44]);
  ("ln_CD", [3], [SetPoint 44; SetSep 46]);
  ("lo_LA", [3], [SetPoint 46; SetSep 44]);
  ("lt_LT", [3], [SetPoint 44; SetSep 46]);
  ("lv_LV", [3], [SetPoint 44; SetSep 8239]);
  ("lzh_TW", [4], [SetPoint 46; SetSep 44]);
  ("mag_IN", [3], [SetPoint 46; SetSep 44]);
  ("mai_IN", [3], [SetPoint 46; SetSep 44]);
  ("mai_NP", [3], [SetPoint 46; SetSep 44]);
  ("mfe_MU", [3], [SetPoint 46; SetSep 8239]);
  ("mg_MG", [], [SetPoint 44]);
  ("mhr_RU", [3], [SetPoint 44; SetSep 8239]);
  ("mi_NZ", [3], [SetPoint 46; SetSep 44]);
  ("miq_NI", [3], [SetPoint 46; SetSep 44]);
  ("mjw_IN", [3;2], [SetPoint 46; SetSep 44]);
  ("mk_MK", [3], [SetPoint 44; SetSep 8239]);
  ("ml_IN", [3;2], [SetPoint 46; SetSep 44]);
  ("mni_IN", [3;2], [SetPoint 46; SetSep 44]);
  ("mn_MN", [3], [SetPoint 44; SetSep 46]);
  ("mr_IN", [3], [SetPoint 46; SetSep 44]);
  ("ms_MY", [3], [SetPoint 46; SetSep 44]);
  ("mt_MT", [3], [SetPoint 46; SetSep 44]);
  ("my_MM", [3], [SetPoint 46; SetSep 44]);
  ("nan_TW", [4], [SetPoint 46; SetSep 44]);
  ("nb_NO", [3], [SetPoint 44; SetSep 8239]);
  ("nds_DE", [3], [SetPoint 44; SetSep 46]);
  ("nds_NL", [], [SetPoint 44]);
  ("ne_NP", [3], [SetPoint 46; SetSep 44]);
  ("nhn_MX", [3], [SetPoint 46; SetSep 8239]);
  ("niu_NU", [3], [SetPoint 46; SetSep 44]);
  ("niu_NZ", [3], [SetPoint 46; SetSep 44]);
  ("nl_AW", [], [SetPoint 44]);
  ("nl_BE", [3], [SetPoint 44; SetSep 46]);
  ("nl_NL", [], [SetPoint 44]);
  ("nn_NO", [3], [SetPoint 44; SetSep 8239]);
  ("nr_ZA", [3], [SetPoint 46; SetSep 44]);
  ("nso_ZA", [3], [SetPoint 46; SetSep 44]);
  ("oc_FR", [3], [SetPoint 44; SetSep 8239]);
  ("om_ET", [3], [SetPoint 46; SetSep 44]);
  ("om_KE", [3], [SetPoint 46; SetSep 44]);
  ("or_IN", [3;2], [SetPoint 46; SetSep 44]);
  ("os_RU", [3], [SetPoint 44; SetSep 8239]);
  ("pa_IN", [3], [SetPoint 46; SetSep 44]);
  ("pap_AW", [], [SetPoint 44]);
  ("pap_CW", [], [SetPoint 44]);
  ("pa_PK", [3], [SetPoint 46; SetSep 44]);
  ("pl_PL", [3], [SetPoint 44; SetSep 8239]);
  ("POSIX", [], [SetPoint 46]);
  ("ps_AF", [3], [SetPoint 1643; SetSep 1644]);
  ("pt_BR", [3], [SetPoint 44; SetSep 46]);
  ("pt_PT", [], [SetPoint 44]);
  ("quz_PE", [3], [SetPoint 44; SetSep 46]);
  ("raj_IN", [3], [SetPoint 46; SetSep 44]);
  ("ro_RO", [3], [SetPoint 44; SetSep 46]);
  ("ru_RU", [3], [SetPoint 44; SetSep 8239]);
  ("ru_UA", [3], [SetPoint 44; SetSep 46]);
  ("rw_RW", [], [SetPoint 44]);
  ("sa_IN", [3], [SetPoint 46; SetSep 44]);
  ("sat_IN", [3], [SetPoint 46; SetSep 44]);
  ("sc_IT", [3], [SetPoint 44; SetSep 46]);
  ("sd_IN", [3], [SetPoint 46; SetSep 44]);
  ("sd_PK", [3;2], [SetPoint 46; SetSep 44]);
  ("se_NO", [3], [SetPoint 44; SetSep 46]);
  ("sgs_LT", [3], [SetPoint 44; SetSep 46]);
  ("shn_MM", [3], [SetPoint 46; SetSep 44]);
  ("shs_CA", [3], [SetPoint 46; SetSep 44]);
  ("sid_ET", [3], [SetPoint 46; SetSep 44]);
  ("si_LK", [3], [SetPoint 46; SetSep 44]);
  ("sk_SK", [3], [SetPoint 44; SetSep 8239]);
  ("sl_SI", [], [SetPoint 44]);
  ("sm_WS", [3], [SetPoint 46; SetSep 44]);
  ("so_DJ", [], [SetPoint 46]);
  ("so_ET", [3], [SetPoint 46; SetSep 44]);
  ("so_KE", [3], [SetPoint 46; SetSep 44]);
  ("so_SO", [3], [SetPoint 46; SetSep 44]);
  ("sq_AL", [3], [SetPoint 44; SetSep 46]);
  ("sq_MK", [3], [SetPoint 44; SetSep 46]);
  ("sr_ME", [], [SetPoint 44]);
  ("sr_RS", [], [SetPoint 44]);
  ("ss_ZA", [3], [SetPoint 46; SetSep 44]);
  ("st_ZA", [3], [SetPoint 46; SetSep 44]);
  ("sv_FI", [3], [SetPoint 44; SetSep 8239]);
  ("sv_SE", [3], [SetPoint 44; SetSep 8239]);
  ("sw_KE", [3], [SetPoint 46; SetSep 44]);
  ("sw_TZ", [3], [SetPoint 46; SetSep 44]);
  ("szl_PL", [3], [SetPoint 44; SetSep 8239]);
  ("ta_IN", [3;2], [SetPoint 46; SetSep 44]);
  ("ta_LK", [3;2], [SetPoint 46; SetSep 44]);
  ("tcy_IN", [3], [SetPoint 46; SetSep 44]);
  ("te_IN", [3;2], [SetPoint 46; SetSep 44]);
  ("tg_TJ", [3], [SetPoint 44; SetSep 46]);
  ("the_NP", [3], [SetPoint 46; SetSep 44]);
  ("th_TH", [3], [SetPoint 46; SetSep 44]);
  ("ti_ER", [], [SetPoint 46]);
  ("ti_ET", [3], [SetPoint 46; SetSep 44]);
  ("tig_ER", [], [SetPoint 46]);
  ("tk_TM", [3], [SetPoint 46; SetSep 44]);
  ("tl_PH", [3], [SetPoint 46; SetSep 44]);
  ("tn_ZA", [3], [SetPoint 46; SetSep 44]);
  ("to_TO", [3], [SetPoint 46; SetSep 44]);
  ("tpi_PG", [3], [SetPoint 46; SetSep 44]);
  ("tr_CY", [3], [SetPoint 44; SetSep 46]);
  ("tr_TR", [3], [SetPoint 44; SetSep 46]);
  ("ts_ZA", [3], [SetPoint 46; SetSep 44]);
  ("tt_RU", [3], [SetPoint 44; SetSep 8239]);
  ("tt_RU_iqtelif", [3], [SetPoint 44; SetSep 46]);
  ("ug_CN", [3], [SetPoint 46; SetSep 44]);
  ("uk_UA", [3], [SetPoint 44; SetSep 8239]);
  ("unm_US", [2;2;2;3], [SetPoint 46; SetSep 8239]);
  ("ur_IN", [3], [SetPoint 46; SetSep 44]);
  ("ur_PK", [3], [SetPoint 46; SetSep 44]);
  ("uz_UZ", [3], [SetPoint 46; SetSep 44]);
  ("ve_ZA", [3], [SetPoint 46; SetSep 44]);
  ("vi_VN", [3], [SetPoint 44; SetSep 46]);
  ("wa_BE", [3], [SetPoint 44; SetSep 46]);
  ("wae_CH", [3], [SetPoint 46; SetSep 39]);
  ("wal_ET", [3], [SetPoint 46; SetSep 44]);
  ("wo_SN", [], [SetPoint 44]);
  ("xh_ZA", [3], [SetPoint 46; SetSep 44]);
  ("yi_US", [3], [SetPoint 46; SetSep 44]);
  ("yo_NG", [3], [SetPoint 46; SetSep 44]);
  ("yue_HK", [3], [SetPoint 46; SetSep 44]);
  ("yuw_PG", [3], [SetPoint 46; SetSep 44]);
  ("zh_CN", [3], [SetPoint 46; SetSep 44]);
  ("zh_HK", [3], [SetPoint 46; SetSep 44]);
  ("zh_SG", [3], [SetPoint 46; SetSep 44]);
  ("zh_TW", [3], [SetPoint 46; SetSep 44]);
  ("zu_ZA", [3], [SetPoint 46; SetSep 44]) ]%string.
(* the constructor used by the declaration: numpunct.hpp:424-444 *)
Definition numpunct_for (args : list Z) : option numpunct := match args with [] => Some numpunct_default | _ => numpunct_args args end.
(* the value of one of the predefined facets, numpunct.hpp:620-1790 *)
Definition predefined_numpunct (e : string * list Z * list np_call) : option numpunct :=
  do p <- numpunct_for (snd (fst e)) ; Some (np_applies p (snd e)).
