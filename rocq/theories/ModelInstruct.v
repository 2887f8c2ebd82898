(** The instructions that appletree ships (appletree/instructs/*.json), with the names of the
    parameters in their par_config files (appletree/parameters/*.json), and the classes in
    appletree.components, as data for the model of a context (ModelWhole.v). The par_config entry
    itself is not part of [instruct]. The numbers in configs are in units of 0.001, as in
    ModelShipped.v; those of the likelihoods are exact. No proofs in this file. *)
From Coq Require Import Reals.
From Verif Require Import Base ModelFloat ModelHist ModelShare ModelConfig ModelComponent ModelShipped
  ModelLikelihood ModelBinning ModelLit ModelContext ModelWhole.
Local Open Scope string_scope.
Local Open Scope list_scope.

(** components/*.py: the registered plugins in order, norm_type and add_eps_to_hist
    (er.py:7-8, 22-23, 37-38, 52-53; nr.py:7-8; ac.py:5; component.py:29-32 for the defaults). *)
Definition shipped_classes : dict comp_class :=
  [("ERBand", ClsSim (List.concat calls_ERBand) OnPdf false);
   ("ERPeak", ClsSim (List.concat calls_ERPeak) OnPdf false);
   ("ERBandNestV2", ClsSim (List.concat calls_ERBandNestV2) OnPdf false);
   ("ERPeakNestV2", ClsSim (List.concat calls_ERPeakNestV2) OnPdf false);
   ("NR", ClsSim (List.concat calls_NR) OnPdf false);
   ("MonoEnergiesYields", ClsSim (List.concat calls_MonoEnergiesYields) NormOther true);
   ("BandEnergiesYields", ClsSim (List.concat calls_BandEnergiesYields) NormOther true);
   ("AC", ClsFixed OnPdf true)].
Definition appletree_components (n : string) : option comp_class := get n shipped_classes.

Section Instructs.
Local Open Scope R_scope.

(** * appletree/instructs/rn220.json *)

(** instructs/rn220.json, "configs". *)
Definition rn220_configs : dict value :=
  [("s1_correction", VStr "_s1_correction.json");
   ("s2_correction", VStr "_s2_correction.json");
   ("elife", VStr "_elife.json");
   ("posrec_reso", VStr "_posrec_reso.json");
   ("s1_eff_3f", VList [VStr "_3fold_recon_eff.json"; VStr "_3fold_recon_eff.json"; VStr "_3fold_recon_eff.json"]);
   ("s1_cut_acc", VList [VStr "_s1_cut_acc.json"; VStr "_s1_cut_acc.json"; VStr "_s1_cut_acc.json"]);
   ("s2_cut_acc", VList [VStr "_s2_cut_acc.json"; VStr "_s2_cut_acc.json"; VStr "_s2_cut_acc.json"]);
   ("s1_bias_3f", VStr "_s1_bias.json");
   ("s1_smear_3f", VStr "_s1_smearing.json");
   ("s2_bias", VStr "_s2_bias.json");
   ("s2_smear", VStr "_s2_smearing.json")].

(** instructs/rn220.json:26 *)
Definition rn220_rn220_llh : linstruct :=
  mk_linstruct
    (TDefault (mk_lconfig "equiprob" (OnList ["cs1"; "cs2"])
       (PList [AInt 15; AInt 15])
       (None) (Some (Fin 0, Fin 100)) (Some (Fin 200, Fin 10000)))
       "data_Rn220.csv")
    []
    [("rn220_er_rate", "er_rate"); ("rn220_ac_rate", "ac_rate")]
    [("rn220_er", ("ERBand", None)); ("rn220_ac", ("AC", Some "AC_Rn220.pkl"))].

Definition rn220 : instruct :=
  mk_instruct None rn220_configs
    [("rn220_llh", rn220_rn220_llh)].

(** The names in parameters/er.json, the par_config. *)
Definition rn220_parameters : list string :=
  ["w"; "fano"; "gas_gain"; "drift_velocity"; "s2_threshold"; "field"; "nex_ni_ratio"; "g1"; "g2"; "p_dpe"; "elife_sigma"; "s1_eff_3f_sigma"; "s1_cut_acc_sigma"; "s2_cut_acc_sigma"; "py0"; "py1"; "py2"; "py3"; "py4"; "rf0"; "rf1"; "ac_rate"; "er_rate"].

(** * appletree/instructs/rn220_ar37.json *)

(** instructs/rn220_ar37.json, "configs". *)
Definition rn220_ar37_configs : dict value :=
  [("s1_correction", VStr "_s1_correction.json");
   ("s2_correction", VStr "_s2_correction.json");
   ("elife", VStr "_elife.json");
   ("posrec_reso", VStr "_posrec_reso.json");
   ("s1_eff_3f", VList [VStr "_3fold_recon_eff.json"; VStr "_3fold_recon_eff.json"; VStr "_3fold_recon_eff.json"]);
   ("s1_cut_acc", VList [VStr "_s1_cut_acc.json"; VStr "_s1_cut_acc.json"; VStr "_s1_cut_acc.json"]);
   ("s2_cut_acc", VList [VStr "_s2_cut_acc.json"; VStr "_s2_cut_acc.json"; VStr "_s2_cut_acc.json"]);
   ("s1_bias_3f", VStr "_s1_bias.json");
   ("s1_smear_3f", VStr "_s1_smearing.json");
   ("s2_bias", VStr "_s2_bias.json");
   ("s2_smear", VStr "_s2_smearing.json")].

(** instructs/rn220_ar37.json:26 *)
Definition rn220_ar37_rn220_llh : linstruct :=
  mk_linstruct
    (TDefault (mk_lconfig "equiprob" (OnList ["cs1"; "cs2"])
       (PList [AInt 15; AInt 15])
       (None) (Some (Fin 0, Fin 100)) (Some (Fin 200, Fin 10000)))
       "data_Rn220.csv")
    [("s1_cut_acc_sigma_rn220", "s1_cut_acc_sigma"); ("s2_cut_acc_sigma_rn220", "s2_cut_acc_sigma")]
    [("rn220_er_rate", "er_rate"); ("rn220_ac_rate", "ac_rate")]
    [("rn220_er", ("ERBand", None)); ("rn220_ac", ("AC", Some "AC_Rn220.pkl"))].

(** instructs/rn220_ar37.json:51 *)
Definition rn220_ar37_ar37_llh : linstruct :=
  mk_linstruct
    (TDefault (mk_lconfig "equiprob" (OnList ["cs1"; "cs2"])
       (PList [AInt 20; AInt 20])
       (None) (Some (Fin 0, Fin 50)) (Some (Fin 1250, Fin 2200)))
       "data_Ar37.csv")
    [("s1_cut_acc_sigma_ar37", "s1_cut_acc_sigma"); ("s2_cut_acc_sigma_ar37", "s2_cut_acc_sigma")]
    [("ar37_er_rate", "er_rate")]
    [("ar37_er", ("ERPeak", None))].

Definition rn220_ar37 : instruct :=
  mk_instruct None rn220_ar37_configs
    [("rn220_llh", rn220_ar37_rn220_llh); ("ar37_llh", rn220_ar37_ar37_llh)].

(** The names in parameters/er_rn220_ar37.json, the par_config. *)
Definition rn220_ar37_parameters : list string :=
  ["w"; "fano"; "gas_gain"; "drift_velocity"; "s2_threshold"; "field"; "nex_ni_ratio"; "g1"; "g2"; "p_dpe"; "elife_sigma"; "s1_eff_3f_sigma"; "s1_cut_acc_sigma_rn220"; "s1_cut_acc_sigma_ar37"; "s2_cut_acc_sigma_rn220"; "s2_cut_acc_sigma_ar37"; "py0"; "py1"; "py2"; "py3"; "py4"; "rf0"; "rf1"; "ac_rate"; "er_rate"].

(** * appletree/instructs/neutron_low.json *)

(** instructs/neutron_low.json, "configs". *)
Definition neutron_low_configs : dict value :=
  [("s1_correction", VStr "_s1_correction.json");
   ("s2_correction", VStr "_s2_correction.json");
   ("elife", VStr "_elife.json");
   ("posrec_reso", VStr "_posrec_reso.json");
   ("s1_eff_3f", VList [VStr "_3fold_recon_eff.json"; VStr "_3fold_recon_eff.json"; VStr "_3fold_recon_eff.json"]);
   ("s1_cut_acc", VList [VStr "_s1_cut_acc.json"; VStr "_s1_cut_acc.json"; VStr "_s1_cut_acc.json"]);
   ("s2_cut_acc", VList [VStr "_s2_cut_acc.json"; VStr "_s2_cut_acc.json"; VStr "_s2_cut_acc.json"]);
   ("s1_bias_3f", VStr "_s1_bias.json");
   ("s1_smear_3f", VStr "_s1_smearing.json");
   ("s2_bias", VStr "_s2_bias.json");
   ("s2_smear", VStr "_s2_smearing.json");
   ("ly_median", VStr "_nr_ly.json");
   ("qy_median", VStr "_nr_qy.json");
   ("energy_spectrum", VStr "_nr_spectrum.json")].

(** instructs/neutron_low.json:29 *)
Definition neutron_low_neutron_llh : linstruct :=
  mk_linstruct
    (TDefault (mk_lconfig "irreg" (OnList ["num_s1_phd"; "cs2"])
       (PList [AArr (Arr1 [Fin (3 / 2); Fin (11 / 2); Fin (19 / 2)]); AArr (Arr2 [[Fin 100; Fin 500; Fin 1000]; [Fin 100; Fin 600; Fin 1000]])])
       (None) (Some (Fin (3 / 2), Fin (19 / 2))) (Some (Fin 100, Fin 1000)))
       "data_Neutron.csv")
    []
    [("neutron_nr_rate", "nr_rate")]
    [("neutron_nr", ("NR", None))].

Definition neutron_low : instruct :=
  mk_instruct None neutron_low_configs
    [("neutron_llh", neutron_low_neutron_llh)].

(** The names in parameters/nr_low.json, the par_config. *)
Definition neutron_low_parameters : list string :=
  ["gas_gain"; "drift_velocity"; "s2_threshold"; "g1"; "g2"; "p_dpe"; "elife_sigma"; "s1_eff_3f_sigma"; "s1_cut_acc_sigma"; "s2_cut_acc_sigma"; "t_ly"; "t_qy"; "nr_rate"].

(** * appletree/instructs/literature_lyqy.json *)

(** instructs/literature_lyqy.json, "configs". *)
Definition literature_lyqy_configs : dict value :=
  [("energy_twohalfnorm", VDict [("ly_lux_2016", VList [VList [VStr "mu"; VStr "sigma_pos"; VStr "sigma_neg"]; VList [VList [VNum 1080; VNum 1920; VNum 3130; VNum 4450; VNum 5890; VNum 7440; VNum 9100; VNum 10900; VNum 12800]; VList [VNum 130; VNum 90; VNum 110; VNum 110; VNum 130; VNum 170; VNum 200; VNum 300; VNum 300]; VList [VNum 130; VNum 90; VNum 110; VNum 110; VNum 130; VNum 170; VNum 200; VNum 300; VNum 300]]]); ("qy_lenardo_2019", VList [VList [VStr "mu"; VStr "sigma_pos"; VStr "sigma_neg"]; VList [VList [VNum 6080; VNum 4650; VNum 3610; VNum 2950; VNum 2110; VNum 1610; VNum 970; VNum 930; VNum 442; VNum 296]; VList [VNum 420; VNum 250; VNum 230; VNum 210; VNum 310; VNum 160; VNum 130; VNum 120; VNum 88; VNum 74]; VList [VNum 520; VNum 240; VNum 220; VNum 200; VNum 280; VNum 150; VNum 110; VNum 110; VNum 74; VNum 62]]])]);
   ("clip_lower_energy", VDict [("ly_lux_2016", VNum 0); ("qy_lenardo_2019", VNum 0); ("ly_lux_2022", VNum 0); ("qy_lux_2022", VNum 0)]);
   ("clip_upper_energy", VDict [("ly_lux_2016", VNum 2500); ("qy_lenardo_2019", VNum 2500); ("ly_lux_2022", VNum 2500); ("qy_lux_2022", VNum 2500)]);
   ("field", VDict [("ly_lux_2016", VNum 180000); ("qy_lenardo_2019", VNum 220000); ("ly_lux_2022", VNum 400000); ("qy_lux_2022", VNum 400000)]);
   ("efield_position_dependence", VDict [("ly_lux_2016", VBool false); ("qy_lenardo_2019", VBool false); ("ly_lux_2022", VBool false); ("qy_lux_2022", VBool false)])].

(** instructs/literature_lyqy.json:48 *)
Definition literature_lyqy_ly_lux_2016 : linstruct :=
  mk_linstruct
    (TLit "twohalfnorm" ["energy"; "light_yield"] ["mu"; "sigma_pos"; "sigma_neg"]
       [[Fin (49 / 10); Fin (26 / 5); Fin (49 / 10); Fin (32 / 5); Fin (61 / 10); Fin (37 / 5); Fin (79 / 10); Fin (81 / 10); Fin (89 / 10)];
        [Fin (6 / 5); Fin (3 / 5); Fin (1 / 2); Fin (2 / 5); Fin (2 / 5); Fin (2 / 5); Fin (2 / 5); Fin (2 / 5); Fin (3 / 5)];
        [Fin 1; Fin (2 / 5); Fin (2 / 5); Fin (2 / 5); Fin (3 / 10); Fin (2 / 5); Fin (2 / 5); Fin (1 / 2); Fin (2 / 5)]])
    [("ly_lux_2016_field", "field")]
    [("ly_lux_2016_nr_rate", "rate")]
    [("ly_lux_2016_nr", ("MonoEnergiesYields", None))].

(** instructs/literature_lyqy.json:71 *)
Definition literature_lyqy_qy_lenardo_2019 : linstruct :=
  mk_linstruct
    (TLit "twohalfnorm" ["energy"; "charge_yield"] ["mu"; "sigma_pos"; "sigma_neg"]
       [[Fin (349 / 50); Fin (699 / 100); Fin (733 / 100); Fin (174 / 25); Fin (172 / 25); Fin (689 / 100); Fin (623 / 100); Fin (158 / 25); Fin (229 / 50); Fin (347 / 100)];
        [Fin (2 / 25); Fin (3 / 25); Fin (11 / 100); Fin (1 / 10); Fin (9 / 100); Fin (21 / 100); Fin (11 / 50); Fin (23 / 100); Fin (39 / 100); Fin (41 / 100)];
        [Fin (2 / 25); Fin (11 / 100); Fin (13 / 100); Fin (1 / 10); Fin (9 / 100); Fin (11 / 50); Fin (9 / 50); Fin (6 / 25); Fin (19 / 50); Fin (2 / 5)]])
    [("qy_lenardo_2019_field", "field")]
    [("qy_lenardo_2019_nr_rate", "rate")]
    [("qy_lenardo_2019_nr", ("MonoEnergiesYields", None))].

(** instructs/literature_lyqy.json:94 *)
Definition literature_lyqy_ly_lux_2022 : linstruct :=
  mk_linstruct
    (TLit "band" ["energy"; "light_yield"] ["x"; "y"; "yerr_upper"; "yerr_lower"]
       [[Fin (9 / 20); Fin (4 / 5); Fin 2; Fin 4; Fin 6; Fin 8; Fin 15; Fin 40];
        [Fin (153 / 50); Fin (93 / 25); Fin (463 / 100); Fin (553 / 100); Fin (631 / 100); Fin (173 / 25); Fin (42 / 5); Fin (54 / 5)];
        [Fin (227 / 250); Fin (1003 / 1000); Fin (763 / 1000); Fin (13 / 20); Fin (741 / 1000); Fin (817 / 1000); Fin (493 / 500); Fin (158 / 125)];
        [Fin (781 / 1000); Fin (869 / 1000); Fin (177 / 250); Fin (13 / 20); Fin (741 / 1000); Fin (817 / 1000); Fin (493 / 500); Fin (158 / 125)]])
    [("ly_lux_2022_field", "field")]
    [("ly_lux_2022_nr_rate", "rate")]
    [("ly_lux_2022_nr", ("BandEnergiesYields", None))].

(** instructs/literature_lyqy.json:118 *)
Definition literature_lyqy_qy_lux_2022 : linstruct :=
  mk_linstruct
    (TLit "band" ["energy"; "charge_yield"] ["x"; "y"; "yerr_upper"; "yerr_lower"]
       [[Fin (27 / 100); Fin (9 / 20); Fin (4 / 5); Fin 2; Fin 4; Fin 6; Fin 8; Fin 15];
        [Fin (483 / 100); Fin (533 / 100); Fin (63 / 10); Fin (693 / 100); Fin (168 / 25); Fin (647 / 100); Fin (31 / 5); Fin (537 / 100)];
        [Fin (171 / 100); Fin (377 / 250); Fin (1151 / 1000); Fin (807 / 1000); Fin (117 / 200); Fin (283 / 500); Fin (271 / 500); Fin (231 / 500)];
        [Fin (171 / 100); Fin (377 / 250); Fin (1151 / 1000); Fin (807 / 1000); Fin (117 / 200); Fin (283 / 500); Fin (271 / 500); Fin (231 / 500)]])
    [("qy_lux_2022_field", "field")]
    [("qy_lux_2022_nr_rate", "rate")]
    [("qy_lux_2022_nr", ("BandEnergiesYields", None))].

Definition literature_lyqy : instruct :=
  mk_instruct None literature_lyqy_configs
    [("ly_lux_2016", literature_lyqy_ly_lux_2016); ("qy_lenardo_2019", literature_lyqy_qy_lenardo_2019); ("ly_lux_2022", literature_lyqy_ly_lux_2022); ("qy_lux_2022", literature_lyqy_qy_lux_2022)].

(** The names in parameters/nestv2_yield_only.json, the par_config. *)
Definition literature_lyqy_parameters : list string :=
  ["liquid_xe_density"; "alpha"; "beta"; "gamma"; "delta"; "epsilon"; "zeta"; "eta"; "theta"; "iota"; "ly_lux_2016_field"; "qy_lenardo_2019_field"; "ly_lux_2022_field"; "qy_lux_2022_field"; "rate"].

End Instructs.

Definition shipped_instructs : list (instruct * list string) :=
  [(rn220, rn220_parameters); (rn220_ar37, rn220_ar37_parameters); (neutron_low, neutron_low_parameters); (literature_lyqy, literature_lyqy_parameters)].
