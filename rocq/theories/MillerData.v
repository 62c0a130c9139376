(** GENERATED by tools/gen_miller.py: the descriptions of the names of "Q" of each geometry.
    Source: /repo/spec2nexus/diffractometer-geometries.dict (889 lines). *)
From Coq Require Import String.
From Verif Require Import Py.
Import ListNotations.
Local Open Scope string_scope.
Local Open Scope list_scope.

(** diffractometer-geometries.dict: name of the geometry, name and description of each number of #G4 *)
Definition q_table : list (str * list (str * str)) := [
  (L "spec", []);
  (L "fivec", [(L "H", L "1st Miller index"); (L "K", L "2nd Miller index"); (L "L", L "3rd Miller index"); (L "LAMBDA", L "wavelength, Angstrom"); (L "ALPHA", L ""); (L "BETA", L ""); (L "OMEGA", L ""); (L "TTH", L ""); (L "AZIMUTH", L ""); (L "F_ALPHA", L "Frozen values"); (L "F_BETA", L ""); (L "F_OMEGA", L ""); (L "F_AZIMUTH", L ""); (L "F_PHI", L ""); (L "F_CHI_Z", L ""); (L "F_PHI_Z", L ""); (L "F_MU", L ""); (L "CUT_AZI", L "azimuthal cut-point flag"); (L "CUT_DEL", L ""); (L "CUT_TH", L ""); (L "CUT_CHI", L ""); (L "CUT_PHI", L ""); (L "CUT_MU", L ""); (L "CUT_KTH", L ""); (L "CUT_KAP", L ""); (L "CUT_KPHI", L "")]);
  (L "fourc", [(L "H", L "1st Miller index"); (L "K", L "2nd Miller index"); (L "L", L "3rd Miller index"); (L "LAMBDA", L "wavelength, Angstrom"); (L "ALPHA", L ""); (L "BETA", L ""); (L "OMEGA", L ""); (L "AZIMUTH", L ""); (L "F_ALPHA", L "Frozen values"); (L "F_BETA", L ""); (L "F_OMEGA", L ""); (L "F_AZIMUTH", L ""); (L "F_PHI", L ""); (L "F_CHI_Z", L ""); (L "F_PHI_Z", L ""); (L "CUT_AZI", L "azimuthal cut-point flag"); (L "CUT_TTH", L "two-theta cut point"); (L "CUT_TH", L "theta/omega cut point"); (L "CUT_CHI", L "chi cut point"); (L "CUT_PHI", L "phi cut point"); (L "CUT_KTH", L "theta cut point"); (L "CUT_KAP", L "kap cut point"); (L "CUT_KPHI", L "phi cut point"); (L "CUT_CHIR", L "chiR cut point"); (L "CUT_PHIR", L "phiR cut point"); (L "F_THETA", L "")]);
  (L "oscam", [(L "SETSPEED", L ""); (L "USERSPEED", L ""); (L "EXPOSURE_TIME", L ""); (L "LAMBDA", L "wavelength, Angstrom"); (L "N_OSC", L ""); (L "OSC_RANGE", L ""); (L "MAXSPEED", L ""); (L "MINSPEED", L "")]);
  (L "pi1go", [(L "H", L "1st Miller index"); (L "K", L "2nd Miller index"); (L "L", L "3rd Miller index"); (L "LAMBDA", L "wavelength, Angstrom"); (L "TWO_THETA", L ""); (L "BETA", L ""); (L "CUT_GAM", L ""); (L "CUT_OME", L ""); (L "CUT_ALF", L "")]);
  (L "psic", [(L "H", L "1st Miller index"); (L "K", L "2nd Miller index"); (L "L", L "3rd Miller index"); (L "LAMBDA", L "wavelength, Angstrom"); (L "ALPHA", L ""); (L "BETA", L ""); (L "OMEGA", L ""); (L "TTH", L ""); (L "PSI", L ""); (L "TAU", L ""); (L "QAZ", L ""); (L "NAZ", L ""); (L "SIGMA_AZ", L ""); (L "TAU_AZ", L ""); (L "F_ALPHA", L "Frozen values"); (L "F_BETA", L ""); (L "F_OMEGA", L ""); (L "F_PSI", L ""); (L "F_NAZ", L ""); (L "F_QAZ", L ""); (L "F_DEL", L ""); (L "F_ETA", L ""); (L "F_CHI", L ""); (L "F_PHI", L ""); (L "F_NU", L ""); (L "F_MU", L ""); (L "F_CHI_Z", L ""); (L "F_PHI_Z", L ""); (L "CUT_DEL", L "cut points"); (L "CUT_ETA", L ""); (L "CUT_CHI", L ""); (L "CUT_PHI", L ""); (L "CUT_NU", L ""); (L "CUT_MU", L ""); (L "CUT_KETA", L ""); (L "CUT_KAP", L ""); (L "CUT_KPHI", L "")]);
  (L "s1d2", [(L "H", L "1st Miller index"); (L "K", L "2nd Miller index"); (L "L", L "3rd Miller index"); (L "LAMBDA", L "wavelength, Angstrom"); (L "TTH", L ""); (L "CUT_OME", L ""); (L "CUT_SIG", L ""); (L "CUT_TAU", L "")]);
  (L "s2d2", [(L "H", L "1st Miller index"); (L "K", L "2nd Miller index"); (L "L", L "3rd Miller index"); (L "LAMBDA", L "wavelength, Angstrom"); (L "ALPHA", L ""); (L "BETA", L ""); (L "TWO_THETA", L ""); (L "AZIMUTH", L ""); (L "EPSILON", L ""); (L "F_ALPHA", L ""); (L "F_BETA", L ""); (L "F_PHI", L ""); (L "ETA", L ""); (L "CUT_GAM", L ""); (L "CUT_DEL", L ""); (L "CUT_CHI", L ""); (L "CUT_PHI", L "")]);
  (L "sevc", [(L "H", L "1st Miller index"); (L "K", L "2nd Miller index"); (L "L", L "3rd Miller index"); (L "LAMBDA", L "wavelength, Angstrom"); (L "ALPHA", L ""); (L "BETA", L ""); (L "TTH", L ""); (L "POL", L ""); (L "SIGMA", L ""); (L "TAU", L ""); (L "F_ALPHA", L "Frozen values"); (L "F_BETA", L ""); (L "F_RHO", L ""); (L "F_MU", L ""); (L "F_CHI", L ""); (L "F_PHI", L ""); (L "CUT_RHO", L "cut points"); (L "CUT_NU", L ""); (L "CUT_DEL", L ""); (L "CUT_MU", L ""); (L "CUT_ETA", L ""); (L "CUT_CHI", L ""); (L "CUT_PHI", L "")]);
  (L "sixc", [(L "H", L "1st Miller index"); (L "K", L "2nd Miller index"); (L "L", L "3rd Miller index"); (L "LAMBDA", L "wavelength, Angstrom"); (L "ALPHA", L ""); (L "BETA", L ""); (L "OMEGA", L ""); (L "TTH", L ""); (L "AZIMUTH", L ""); (L "SIGMA", L ""); (L "TAU", L ""); (L "F_ALPHA", L "Frozen values"); (L "F_BETA", L ""); (L "F_OMEGA", L ""); (L "F_AZIMUTH", L ""); (L "F_PHI", L ""); (L "F_CHI_Z", L ""); (L "F_PHI_Z", L ""); (L "F_MU", L ""); (L "F_GAMMA", L ""); (L "CUT_AZI", L "azimuthal cut-point flag"); (L "CUT_DEL", L ""); (L "CUT_TH", L ""); (L "CUT_CHI", L ""); (L "CUT_PHI", L ""); (L "CUT_MU", L ""); (L "CUT_GAM", L ""); (L "F_CHI", L "")]);
  (L "surf", [(L "H", L "1st Miller index"); (L "K", L "2nd Miller index"); (L "L", L "3rd Miller index"); (L "LAMBDA", L "wavelength, Angstrom"); (L "ALPHA", L ""); (L "BETA", L "")]);
  (L "suv", [(L "H", L "1st Miller index"); (L "K", L "2nd Miller index"); (L "L", L "3rd Miller index"); (L "LAMBDA", L "wavelength, Angstrom"); (L "TWO_THETA", L ""); (L "CUT_DEL", L ""); (L "CUT_OME", L ""); (L "CUT_ALF", L ""); (L "CUT_BET", L ""); (L "CUT_KHI1", L ""); (L "CUT_KHI2", L ""); (L "F_ALPHA_S", L ""); (L "F_BETA_S", L ""); (L "F_ALPHA_R", L ""); (L "F_BETA_R", L ""); (L "KHI1_S", L ""); (L "KHI2_S", L ""); (L "KHI1_R", L ""); (L "KHI2_R", L ""); (L "ALPHA_S", L ""); (L "BETA_S", L ""); (L "ALPHA_R", L ""); (L "BETA_R", L "")]);
  (L "trip", [(L "H", L "1st Miller index"); (L "K", L "2nd Miller index"); (L "L", L "3rd Miller index"); (L "LAMBDA", L "wavelength, Angstrom")]);
  (L "twoc", [(L "H", L "1st Miller index"); (L "K", L "2nd Miller index"); (L "L", L "3rd Miller index"); (L "LAMBDA", L "wavelength, Angstrom")]);
  (L "twoc_old", [(L "H", L "1st Miller index"); (L "K", L "2nd Miller index"); (L "LAMBDA", L "wavelength, Angstrom"); (L "ALPHA", L ""); (L "BETA", L "")]);
  (L "w21h", [(L "H", L "1st Miller index"); (L "K", L "2nd Miller index"); (L "L", L "3rd Miller index"); (L "LAMBDA", L "wavelength, Angstrom"); (L "ALPHA", L ""); (L "BETA", L ""); (L "TWO_THETA", L ""); (L "AZIMUTH", L ""); (L "F_ALPHA", L ""); (L "F_BETA", L ""); (L "CUT_DEL", L ""); (L "CUT_OME", L ""); (L "CUT_ALF", L ""); (L "CUT_BET", L "")]);
  (L "w21v", [(L "H", L "1st Miller index"); (L "K", L "2nd Miller index"); (L "L", L "3rd Miller index"); (L "LAMBDA", L "wavelength, Angstrom"); (L "TWO_THETA", L ""); (L "BETA", L ""); (L "DELTA", L ""); (L "F_ALPHA", L ""); (L "F_BETA", L "")]);
  (L "zaxis", [(L "H", L "1st Miller index"); (L "K", L "2nd Miller index"); (L "L", L "3rd Miller index"); (L "LAMBDA", L "wavelength, Angstrom"); (L "ALPHA", L ""); (L "BETA", L ""); (L "OMEGA", L ""); (L "TTH", L ""); (L "AZIMUTH", L ""); (L "SIGMA", L ""); (L "TAU", L ""); (L "F_ALPHA", L "Frozen values"); (L "F_BETA", L ""); (L "F_OMEGA", L ""); (L "F_THETA", L ""); (L "F_MU", L ""); (L "F_GAMMA", L ""); (L "CUT_DEL", L ""); (L "CUT_TH", L "theta cut point"); (L "CUT_MU", L ""); (L "CUT_GAM", L ""); (L "ALPHA_C", L "alpha critical (for Munich configuration)")]);
  (L "zaxis_old", [(L "H", L "1st Miller index"); (L "K", L "2nd Miller index"); (L "L", L "3rd Miller index"); (L "LAMBDA", L "wavelength, Angstrom")]);
  (L "zeta", [(L "H", L "1st Miller index"); (L "K", L "2nd Miller index"); (L "L", L "3rd Miller index"); (L "LAMBDA", L "wavelength, Angstrom"); (L "TTH", L ""); (L "ALPHA", L ""); (L "BETA", L ""); (L "F_ALPHA", L "Frozen values"); (L "F_BETA", L ""); (L "CUT_NU", L ""); (L "CUT_ZETA", L "theta cut point"); (L "CUT_DEL", L ""); (L "CUT_TH", L "")])
].
