(** GENERATED by tools/gen_geom.py: the geometry catalog.
    Source: /repo/spec2nexus/diffractometer-geometries.dict (889 lines) and
    /repo/spec2nexus/diffractometers.py 54-91 (DEFAULT_U).  The descriptions of the
    parameters are left out (they are only copied into HDF5 attributes). *)
From Coq Require Import String.
From Verif Require Import Py.
Import ListNotations.
Local Open Scope string_scope.
Local Open Scope list_scope.

(** diffractometers.py 585-600: one entry of "variations" *)
Record variation := mk_var { v_name : str; v_motors : list str; v_others : list str }.
(** diffractometer-geometries.dict: one geometry *)
Record geometry := mk_geo {
  g_name : str; g_numgeo : nat; g_G : list str; g_Q : list str; g_modes : list str;
  g_U : option (list str); g_vars : list variation }.

(** diffractometers.py 54-91 *)
Definition default_U : list str := (map L ["g_aa"; "g_bb"; "g_cc"; "g_al"; "g_be"; "g_ga"; "g_aa_s"; "g_bb_s"; "g_cc_s"; "g_al_s"; "g_be_s"; "g_ga_s"; "g_h0"; "g_k0"; "g_l0"; "g_h1"; "g_k1"; "g_l1"; "g_u00"; "g_u01"; "g_u02"; "g_u03"; "g_u04"; "g_u05"; "g_u10"; "g_u11"; "g_u12"; "g_u13"; "g_u14"; "g_u15"; "g_lambda0"; "g_lambda1"; "g_u06"; "g_u16"]).

(** diffractometers.py 443-444: [eval] of the dictionary file *)
Definition catalog : list geometry := [
  mk_geo (L "spec") 0
    (map L [])
    (map L [])
    (map L [])
    None
    [mk_var (L "default") (map L []) (map L [])];
  mk_geo (L "fivec") 5
    (map L ["g_mode"; "g_sect"; "g_frz"; "g_haz"; "g_kaz"; "g_laz"; "g_zh0"; "g_zk0"; "g_zl0"; "g_zh1"; "g_zk1"; "g_zl1"; "g_kappa"; "g_config"])
    (map L ["H"; "K"; "L"; "LAMBDA"; "ALPHA"; "BETA"; "OMEGA"; "TTH"; "AZIMUTH"; "F_ALPHA"; "F_BETA"; "F_OMEGA"; "F_AZIMUTH"; "F_PHI"; "F_CHI_Z"; "F_PHI_Z"; "F_MU"; "CUT_AZI"; "CUT_DEL"; "CUT_TH"; "CUT_CHI"; "CUT_PHI"; "CUT_MU"; "CUT_KTH"; "CUT_KAP"; "CUT_KPHI"])
    (map L ["Omega fixed (four circle, Mu = 0)"; "Phi fixed (four circle, Mu = 0)"; "Zone (four circle, Mu = 0)"; "Azimuth and Mu fixed"; "Alpha and Mu fixed"; "Beta and Mu fixed"; "Azimuth fixed, Mu varies"; "Alpha fixed, Mu varies"; "Beta fixed, Mu varies"; "Specular"])
    None
    [mk_var (L "default") (map L ["del"; "th"; "chi"; "phi"; "mu"]) (map L []); mk_var (L "kappa") (map L ["del"; "th"; "chi"; "phi"; "mu"; "kth"; "kap"; "kphi"]) (map L [])];
  mk_geo (L "fourc") 4
    (map L ["g_mode"; "g_sect"; "g_frz"; "g_haz"; "g_kaz"; "g_laz"; "g_zh0"; "g_zk0"; "g_zl0"; "g_zh1"; "g_zk1"; "g_zl1"; "g_kappa"; "g_vmode"; "g_picker"; "g_omsect"; "g_mon_sam_len"; "g_sam_ana_len"; "g_ana_det_len"; "g_mon_sign"; "g_sam_sign"; "g_ana_sign"; "g_mon_d"; "g_ana_d"; "g_inci_offset"; "g_xtalogic_d1"; "g_xtalogic_d2"])
    (map L ["H"; "K"; "L"; "LAMBDA"; "ALPHA"; "BETA"; "OMEGA"; "AZIMUTH"; "F_ALPHA"; "F_BETA"; "F_OMEGA"; "F_AZIMUTH"; "F_PHI"; "F_CHI_Z"; "F_PHI_Z"; "CUT_AZI"; "CUT_TTH"; "CUT_TH"; "CUT_CHI"; "CUT_PHI"; "CUT_KTH"; "CUT_KAP"; "CUT_KPHI"; "CUT_CHIR"; "CUT_PHIR"; "F_THETA"])
    (map L ["Omega equals zero"; "Omega fixed"; "Zone (Chi and Phi fixed)"; "Phi fixed (Three-circle)"; "Azimuth fixed"; "Alpha fixed"; "Beta fixed"; "Theta fixed"])
    None
    [mk_var (L "default") (map L ["tth"; "th"; "chi"; "phi"]) (map L []); mk_var (L "kappa") (map L ["tth"; "om"; "chi"; "phi"; "kth"; "kap"; "kphi"]) (map L []); mk_var (L "omega") (map L ["tth"; "om"; "chi"; "phi"]) (map L []); mk_var (L "picker") (map L ["tth"; "th"; "chi"; "phi"]) (map L ["chiR"; "phiR"]); mk_var (L "3axis") (map L ["tth"; "th"; "chi"; "phi"]) (map L ["thR"; "tthR"; "sy"; "ay"; "dy"; "mth"; "ath"]); mk_var (L "xtalogic") (map L ["tth"; "om"; "chi"; "phi"; "kth"; "kap"; "kphi"]) (map L ["xlhgt"])];
  mk_geo (L "oscam") 0
    (map L [])
    (map L ["SETSPEED"; "USERSPEED"; "EXPOSURE_TIME"; "LAMBDA"; "N_OSC"; "OSC_RANGE"; "MAXSPEED"; "MINSPEED"])
    (map L [])
    None
    [mk_var (L "default") (map L []) (map L [])];
  mk_geo (L "pi1go") 3
    (map L ["g_mode"])
    (map L ["H"; "K"; "L"; "LAMBDA"; "TWO_THETA"; "BETA"; "CUT_GAM"; "CUT_OME"; "CUT_ALF"])
    (map L [])
    None
    [mk_var (L "default") (map L ["ome"; "alf"; "gam"]) (map L [])];
  mk_geo (L "psic") 6
    (map L ["g_prefer"; "g_sect"; "g_frz"; "g_haz"; "g_kaz"; "g_laz"; "g_zh0"; "g_zk0"; "g_zl0"; "g_zh1"; "g_zk1"; "g_zl1"; "g_kappa"; "g_sigtau"; "g_mode1"; "g_mode2"; "g_mode3"; "g_mode4"; "g_mode5"; "g_use_daz"])
    (map L ["H"; "K"; "L"; "LAMBDA"; "ALPHA"; "BETA"; "OMEGA"; "TTH"; "PSI"; "TAU"; "QAZ"; "NAZ"; "SIGMA_AZ"; "TAU_AZ"; "F_ALPHA"; "F_BETA"; "F_OMEGA"; "F_PSI"; "F_NAZ"; "F_QAZ"; "F_DEL"; "F_ETA"; "F_CHI"; "F_PHI"; "F_NU"; "F_MU"; "F_CHI_Z"; "F_PHI_Z"; "CUT_DEL"; "CUT_ETA"; "CUT_CHI"; "CUT_PHI"; "CUT_NU"; "CUT_MU"; "CUT_KETA"; "CUT_KAP"; "CUT_KPHI"])
    (map L [])
    None
    [mk_var (L "default") (map L ["del"; "eta"; "chi"; "phi"; "nu"; "mu"]) (map L []); mk_var (L "kappa") (map L ["del"; "eta"; "kap"; "keta"; "kphi"]) (map L []); mk_var (L "+daz") (map L ["del"; "eta"; "chi"; "phi"; "nu"; "mu"; "daz"]) (map L []); mk_var (L "s2d2") (map L ["del"; "eta"; "nu"; "mu"]) (map L []); mk_var (L "s2d2+daz") (map L ["del"; "eta"; "nu"; "mu"; "daz"]) (map L [])];
  mk_geo (L "s1d2") 3
    (map L ["g_len"; "g_track"])
    (map L ["H"; "K"; "L"; "LAMBDA"; "TTH"; "CUT_OME"; "CUT_SIG"; "CUT_TAU"])
    (map L [])
    None
    [mk_var (L "default") (map L ["ome"; "sig"; "tau"]) (map L [])];
  mk_geo (L "s2d2") 4
    (map L ["g_mode"; "g_sect"; "g_frz"; "g_haz"; "g_kaz"; "g_laz"])
    (map L ["H"; "K"; "L"; "LAMBDA"; "ALPHA"; "BETA"; "TWO_THETA"; "AZIMUTH"; "EPSILON"; "F_ALPHA"; "F_BETA"; "F_PHI"; "ETA"; "CUT_GAM"; "CUT_DEL"; "CUT_CHI"; "CUT_PHI"])
    (map L [])
    None
    [mk_var (L "default") (map L ["gam"; "del"; "chi"; "phi"]) (map L [])];
  mk_geo (L "sevc") 7
    (map L ["g_mode"; "g_sect"; "g_frz"; "g_haz"; "g_kaz"; "g_laz"; "g_len"; "g_zrot_p"; "g_NU_p"; "g_track"; "g_sigtau"])
    (map L ["H"; "K"; "L"; "LAMBDA"; "ALPHA"; "BETA"; "TTH"; "POL"; "SIGMA"; "TAU"; "F_ALPHA"; "F_BETA"; "F_RHO"; "F_MU"; "F_CHI"; "F_PHI"; "CUT_RHO"; "CUT_NU"; "CUT_DEL"; "CUT_MU"; "CUT_ETA"; "CUT_CHI"; "CUT_PHI"])
    (map L ["Alpha fixed, surface normal in vertical plane"; "Beta fixed, surface normal in vertical plane"; "Alpha = Beta, surface normal in vertical plane"; "Phi fixed, surface normal in vertical plane"; "Alpha fixed, Chi fixed"; "Beta fixed, Chi fixed"; "Alpha = Beta, Chi fixed"; "Phi fixed, Chi fixed"])
    None
    [mk_var (L "default") (map L ["rho"; "nu"; "del"; "mu"; "eta"; "chi"; "phi"]) (map L [])];
  mk_geo (L "sixc") 6
    (map L ["g_mode"; "g_sect"; "g_frz"; "g_haz"; "g_kaz"; "g_laz"; "g_zh0"; "g_zk0"; "g_zl0"; "g_zh1"; "g_zk1"; "g_zl1"; "g_len"; "g_config"; "g_track"; "g_sigtau"; "g_len2"])
    (map L ["H"; "K"; "L"; "LAMBDA"; "ALPHA"; "BETA"; "OMEGA"; "TTH"; "AZIMUTH"; "SIGMA"; "TAU"; "F_ALPHA"; "F_BETA"; "F_OMEGA"; "F_AZIMUTH"; "F_PHI"; "F_CHI_Z"; "F_PHI_Z"; "F_MU"; "F_GAMMA"; "CUT_AZI"; "CUT_DEL"; "CUT_TH"; "CUT_CHI"; "CUT_PHI"; "CUT_MU"; "CUT_GAM"; "F_CHI"])
    (map L ["Omega fixed (four circle, Mu = Gamma = 0)"; "Phi fixed (four circle, Mu = Gamma = 0)"; "Zone (four circle, Mu = Gamma = 0)"; "Azimuth, Mu and Gamma fixed"; "Alpha, Mu and Gamma fixed"; "Beta, Mu and Gamma fixed"; "Azimuth and Gamma fixed, Mu varies"; "Alpha and Gamma fixed, Mu varies"; "Beta and Gamma fixed, Mu varies"; "Azimuth and Mu fixed, Gamma varies"; "Alpha and Mu fixed, Gamma varies"; "Beta and Mu fixed, Gamma varies"; "Z-Axis with Azimuth fixed and Chi, Phi set to -Sigma, -Tau"; "Z-Axis with Alpha fixed and Chi, Phi set to -Sigma, -Tau"; "Z-Axis with Beta fixed and Chi, Phi set to -Sigma, -Tau"; "Specular"; "Chi, Phi and Mu fixed"])
    None
    [mk_var (L "default") (map L ["del"; "th"; "chi"; "phi"; "mu"; "gam"]) (map L [])];
  mk_geo (L "surf") 0
    (map L ["g_mode"; "g_h0"; "g_k0"; "g_l0"; "g_psi"])
    (map L ["H"; "K"; "L"; "LAMBDA"; "ALPHA"; "BETA"])
    (map L [])
    None
    [mk_var (L "default") (map L []) (map L [])];
  mk_geo (L "suv") 6
    (map L ["g_mode"; "g_sect"; "g_frz"; "g_khi"])
    (map L ["H"; "K"; "L"; "LAMBDA"; "TWO_THETA"; "CUT_DEL"; "CUT_OME"; "CUT_ALF"; "CUT_BET"; "CUT_KHI1"; "CUT_KHI2"; "F_ALPHA_S"; "F_BETA_S"; "F_ALPHA_R"; "F_BETA_R"; "KHI1_S"; "KHI2_S"; "KHI1_R"; "KHI2_R"; "ALPHA_S"; "BETA_S"; "ALPHA_R"; "BETA_R"])
    (map L ["Alpha_S fixed"; "Beta_S fixed"; "Alpha_S equals Beta_S"; "Alpha_R fixed"; "Beta_R fixed"; "Alpha_R equals Beta_R"])
    None
    [mk_var (L "default") (map L ["del"; "ome"; "alf"; "bet"; "khi1"; "khi2"]) (map L [])];
  mk_geo (L "trip") 4
    (map L [])
    (map L ["H"; "K"; "L"; "LAMBDA"])
    (map L [])
    None
    [mk_var (L "default") (map L ["tth"; "th"; "chi"; "phi"]) (map L [])];
  mk_geo (L "twoc") 2
    (map L [])
    (map L ["H"; "K"; "L"; "LAMBDA"])
    (map L [])
    (Some (map L ["g_aa"; "g_bb"; "g_ga"; "g_aa_s"; "g_bb_s"; "g_ga_s"; "g_h0"; "g_k0"; "g_u00"; "g_u01"; "g_lambda"]))
    [mk_var (L "default") (map L ["tth"; "th"]) (map L [])];
  mk_geo (L "twoc_old") 2
    (map L ["g_h0"; "g_k0"; "g_psi"])
    (map L ["H"; "K"; "LAMBDA"; "ALPHA"; "BETA"])
    (map L [])
    None
    [mk_var (L "default") (map L ["tth"; "th"]) (map L [])];
  mk_geo (L "w21h") 4
    (map L ["g_mode"; "g_sect"; "g_frz"; "g_haz"; "g_kaz"; "g_laz"; "g_legA"; "g_legB"; "g_track"])
    (map L ["H"; "K"; "L"; "LAMBDA"; "ALPHA"; "BETA"; "TWO_THETA"; "AZIMUTH"; "F_ALPHA"; "F_BETA"; "CUT_DEL"; "CUT_OME"; "CUT_ALF"; "CUT_BET"])
    (map L [])
    None
    [mk_var (L "default") (map L ["del"; "ome"; "alf"; "bet"; "legf"; "legb1"; "legb2"]) (map L [])];
  mk_geo (L "w21v") 4
    (map L ["g_mode"; "g_sect"; "g_frz"; "g_haz"; "g_kaz"; "g_laz"; "g_legA"; "g_legB"; "g_track"; "g_x2"; "g_xgonioc"; "g_liq"])
    (map L ["H"; "K"; "L"; "LAMBDA"; "TWO_THETA"; "BETA"; "DELTA"; "F_ALPHA"; "F_BETA"])
    (map L [])
    None
    [mk_var (L "default") (map L ["gam"; "mu"; "ome"; "alf"]) (map L []); mk_var (L "id10b") (map L ["del"; "gam"; "om"; "th"]) (map L []); mk_var (L "d32") (map L ["phi"; "psi"; "ome"; "the"; "hgl"; "dht"]) (map L []); mk_var (L "gmci") (map L ["phi"; "psi"; "ome"; "the"]) (map L [])];
  mk_geo (L "zaxis") 4
    (map L ["g_mode"; "g_sect"; "g_frz"; "g_haz"; "g_kaz"; "g_laz"; "g_len"; "g_config"; "g_track"; "g_sigtau"])
    (map L ["H"; "K"; "L"; "LAMBDA"; "ALPHA"; "BETA"; "OMEGA"; "TTH"; "AZIMUTH"; "SIGMA"; "TAU"; "F_ALPHA"; "F_BETA"; "F_OMEGA"; "F_THETA"; "F_MU"; "F_GAMMA"; "CUT_DEL"; "CUT_TH"; "CUT_MU"; "CUT_GAM"; "ALPHA_C"])
    (map L ["Alpha fixed"; "Beta fixed"; "Alpha=Beta"; "Theta fixed"])
    None
    [mk_var (L "default") (map L ["del"; "th"; "mu"; "gam"]) (map L [])];
  mk_geo (L "zaxis_old") 4
    (map L ["z_mode"; "z_aa"; "z_bb"; "z_cc"; "z_l1"])
    (map L ["H"; "K"; "L"; "LAMBDA"])
    (map L [])
    None
    [mk_var (L "default") (map L ["tth"; "th"; "alf"; "gam"]) (map L []); mk_var (L "beta") (map L ["tth"; "th"; "alf"; "gam"; "beta"]) (map L [])];
  mk_geo (L "zeta") 4
    (map L ["g_mode"; "g_sect"; "g_frz"])
    (map L ["H"; "K"; "L"; "LAMBDA"; "TTH"; "ALPHA"; "BETA"; "F_ALPHA"; "F_BETA"; "CUT_NU"; "CUT_ZETA"; "CUT_DEL"; "CUT_TH"])
    (map L ["Alpha fixed"; "Beta fixed"; "Alpha=Beta"])
    None
    [mk_var (L "default") (map L ["nu"; "zeta"; "del"; "th"]) (map L [])]
].
