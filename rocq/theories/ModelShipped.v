(** The plugins and the simulated components that appletree ships: appletree/plugins/*.py and
    appletree/components/*.py, as data for the model of components. For every plugin class its
    name, provides, depends_on, parameters, takes_config and the argument names of simulate; what
    simulate computes is in ModelPlugins.v and ModelCompile.v. The numbers in the defaults of
    Constants and ConstantSets are in units of 0.001 (they are compared, never computed with).
    No proofs in this file. *)
From Verif Require Import Base ModelShare ModelConfig ModelComponent.
Local Open Scope string_scope.

Definition cf_constant (n : string) (v : value) : string * config :=
  (n, mk_config KConstant n (Some v) None).
Definition cf_map (n file : string) : string * config :=
  (n, mk_config KMap n (Some (VStr file)) None).
Definition cf_sigma (n : string) (v : value) : string * config :=
  (n, mk_config KSigmaMap n (Some v) None).
Definition cf_set (n : string) (v : value) : string * config :=
  (n, mk_config KConstantSet n (Some v) None).

(** plugin.py:15-31 the base class, which every module of plugins imports. *)
Definition base_plugin : plugin := mk_plugin "Plugin" [] [] [] [] ["self"].

(** * appletree/plugins/common.py *)

(** plugins/common.py:15-41 *)
Definition common_UniformEnergySpectra : plugin :=
  mk_plugin "UniformEnergySpectra" ["energy"]
    ["batch_size"]
    []
    [cf_constant "lower_energy" (VNum 10);
     cf_constant "upper_energy" (VNum 20000)]
    ["self"; "key"; "parameters"; "batch_size"].

(** plugins/common.py:45-61 *)
Definition common_FixedEnergySpectra : plugin :=
  mk_plugin "FixedEnergySpectra" ["energy"]
    ["batch_size"]
    []
    [cf_map "energy_spectrum" "_nr_spectrum.json"]
    ["self"; "key"; "parameters"; "batch_size"].

(** plugins/common.py:65-77 *)
Definition common_MonoEnergySpectra : plugin :=
  mk_plugin "MonoEnergySpectra" ["energy"]
    ["batch_size"]
    []
    [cf_constant "mono_energy" (VNum 2820)]
    ["self"; "key"; "parameters"; "batch_size"].

(** plugins/common.py:81-114 *)
Definition common_PositionSpectra : plugin :=
  mk_plugin "PositionSpectra" ["x"; "y"; "z"]
    ["batch_size"]
    []
    [cf_constant "z_min" (VNum (-133970));
     cf_constant "z_max" (VNum (-13350));
     cf_constant "r_max" (VNum 60000)]
    ["self"; "key"; "parameters"; "batch_size"].

(** The classes exported by the module (the decorator @export), in the order of the file. *)
Definition export_common : list plugin :=
  [common_UniformEnergySpectra;
   common_FixedEnergySpectra;
   common_MonoEnergySpectra;
   common_PositionSpectra].

(** component.py:259-265: the plugin classes in the order of [dir(module)], the imported base
    class among them. *)
Definition dir_common : list plugin :=
  [common_FixedEnergySpectra;
   common_MonoEnergySpectra;
   base_plugin;
   common_PositionSpectra;
   common_UniformEnergySpectra].

(** * appletree/plugins/er_microphys.py *)

(** plugins/er_microphys.py:13-26 *)
Definition er_microphys_Quanta : plugin :=
  mk_plugin "Quanta" ["num_quanta"]
    ["energy"]
    ["w"; "fano"]
    []
    ["self"; "key"; "parameters"; "energy"].

(** plugins/er_microphys.py:30-39 *)
Definition er_microphys_IonizationER : plugin :=
  mk_plugin "IonizationER" ["num_ion"]
    ["num_quanta"]
    ["nex_ni_ratio"]
    []
    ["self"; "key"; "parameters"; "num_quanta"].

(** plugins/er_microphys.py:43-72 *)
Definition er_microphys_mTI : plugin :=
  mk_plugin "mTI" ["recomb_mean"]
    ["energy"; "field"]
    ["w"; "nex_ni_ratio"; "py0"; "py1"; "py2"; "py3"; "py4"]
    []
    ["self"; "key"; "parameters"; "energy"; "field"].

(** plugins/er_microphys.py:76-85 *)
Definition er_microphys_RecombFluct : plugin :=
  mk_plugin "RecombFluct" ["recomb_std"]
    ["energy"]
    ["rf0"; "rf1"]
    []
    ["self"; "key"; "parameters"; "energy"].

(** plugins/er_microphys.py:89-96 *)
Definition er_microphys_TrueRecombER : plugin :=
  mk_plugin "TrueRecombER" ["recomb"]
    ["recomb_mean"; "recomb_std"]
    []
    []
    ["self"; "key"; "parameters"; "recomb_mean"; "recomb_std"].

(** plugins/er_microphys.py:100-109 *)
Definition er_microphys_RecombinationER : plugin :=
  mk_plugin "RecombinationER" ["num_photon"; "num_electron"]
    ["num_quanta"; "num_ion"; "recomb"]
    []
    []
    ["self"; "key"; "parameters"; "num_quanta"; "num_ion"; "recomb"].

(** The classes exported by the module (the decorator @export), in the order of the file. *)
Definition export_er_microphys : list plugin :=
  [er_microphys_Quanta;
   er_microphys_IonizationER;
   er_microphys_mTI;
   er_microphys_RecombFluct;
   er_microphys_TrueRecombER;
   er_microphys_RecombinationER].

(** component.py:259-265: the plugin classes in the order of [dir(module)], the imported base
    class among them. *)
Definition dir_er_microphys : list plugin :=
  [er_microphys_IonizationER;
   base_plugin;
   er_microphys_Quanta;
   er_microphys_RecombFluct;
   er_microphys_RecombinationER;
   er_microphys_TrueRecombER;
   er_microphys_mTI].

(** * appletree/plugins/lyqy.py *)

(** plugins/lyqy.py:14-31 *)
Definition lyqy_LightYield : plugin :=
  mk_plugin "LightYield" ["light_yield"]
    ["energy"]
    ["t_ly"]
    [cf_map "ly_median" "_nr_ly.json"]
    ["self"; "key"; "parameters"; "energy"].

(** plugins/lyqy.py:35-42 *)
Definition lyqy_NumberPhoton : plugin :=
  mk_plugin "NumberPhoton" ["num_photon"]
    ["energy"; "light_yield"]
    []
    []
    ["self"; "key"; "parameters"; "energy"; "light_yield"].

(** plugins/lyqy.py:46-63 *)
Definition lyqy_ChargeYield : plugin :=
  mk_plugin "ChargeYield" ["charge_yield"]
    ["energy"]
    ["t_qy"]
    [cf_map "qy_median" "_nr_qy.json"]
    ["self"; "key"; "parameters"; "energy"].

(** plugins/lyqy.py:67-74 *)
Definition lyqy_NumberElectron : plugin :=
  mk_plugin "NumberElectron" ["num_electron"]
    ["energy"; "charge_yield"]
    []
    []
    ["self"; "key"; "parameters"; "energy"; "charge_yield"].

(** The classes exported by the module (the decorator @export), in the order of the file. *)
Definition export_lyqy : list plugin :=
  [lyqy_LightYield;
   lyqy_NumberPhoton;
   lyqy_ChargeYield;
   lyqy_NumberElectron].

(** component.py:259-265: the plugin classes in the order of [dir(module)], the imported base
    class among them. *)
Definition dir_lyqy : list plugin :=
  [lyqy_ChargeYield;
   lyqy_LightYield;
   lyqy_NumberElectron;
   lyqy_NumberPhoton;
   base_plugin].

(** * appletree/plugins/detector.py *)

(** plugins/detector.py:14-39 *)
Definition detector_EField : plugin :=
  mk_plugin "EField" ["field"]
    ["x"; "y"; "z"]
    ["field"]
    [cf_constant "efield_position_dependence" (VBool false);
     cf_map "efield_map" "_efield_map.json"]
    ["self"; "key"; "parameters"; "x"; "y"; "z"].

(** plugins/detector.py:43-58 *)
Definition detector_S1LCE : plugin :=
  mk_plugin "S1LCE" ["s1_lce"]
    ["x"; "y"; "z"]
    []
    [cf_map "s1_lce" "_s1_correction.json"]
    ["self"; "key"; "parameters"; "x"; "y"; "z"].

(** plugins/detector.py:62-77 *)
Definition detector_S2LCE : plugin :=
  mk_plugin "S2LCE" ["s2_lce"]
    ["x"; "y"]
    []
    [cf_map "s2_lce" "_s2_correction.json"]
    ["self"; "key"; "parameters"; "x"; "y"].

(** plugins/detector.py:81-90 *)
Definition detector_PhotonDetection : plugin :=
  mk_plugin "PhotonDetection" ["num_s1_phd"]
    ["num_photon"; "s1_lce"]
    ["g1"; "p_dpe"]
    []
    ["self"; "key"; "parameters"; "num_photon"; "s1_lce"].

(** plugins/detector.py:94-103 *)
Definition detector_S1PE : plugin :=
  mk_plugin "S1PE" ["num_s1_pe"]
    ["num_s1_phd"]
    ["p_dpe"]
    []
    ["self"; "key"; "parameters"; "num_s1_phd"].

(** plugins/detector.py:107-125 *)
Definition detector_DriftLoss : plugin :=
  mk_plugin "DriftLoss" ["drift_survive_prob"]
    ["z"]
    ["drift_velocity"; "elife_sigma"]
    [cf_map "elife" "_elife.json"]
    ["self"; "key"; "parameters"; "z"].

(** plugins/detector.py:129-136 *)
Definition detector_ElectronDrifted : plugin :=
  mk_plugin "ElectronDrifted" ["num_electron_drifted"]
    ["num_electron"; "drift_survive_prob"]
    []
    []
    ["self"; "key"; "parameters"; "num_electron"; "drift_survive_prob"].

(** plugins/detector.py:139-166 *)
Definition detector_S2PE : plugin :=
  mk_plugin "S2PE" ["num_s2_pe"]
    ["num_electron_drifted"; "s2_lce"; "x"; "y"]
    ["g2"; "gas_gain"; "p_dpe"]
    [cf_map "gas_gain_relative" "_gas_gain_relative.json"]
    ["self"; "key"; "parameters"; "num_electron_drifted"; "s2_lce"; "x"; "y"].

(** The classes exported by the module (the decorator @export), in the order of the file. *)
Definition export_detector : list plugin :=
  [detector_EField;
   detector_S1LCE;
   detector_S2LCE;
   detector_PhotonDetection;
   detector_S1PE;
   detector_DriftLoss;
   detector_ElectronDrifted;
   detector_S2PE].

(** component.py:259-265: the plugin classes in the order of [dir(module)], the imported base
    class among them. *)
Definition dir_detector : list plugin :=
  [detector_DriftLoss;
   detector_EField;
   detector_ElectronDrifted;
   detector_PhotonDetection;
   base_plugin;
   detector_S1LCE;
   detector_S1PE;
   detector_S2LCE;
   detector_S2PE].

(** * appletree/plugins/reconstruction.py *)

(** plugins/reconstruction.py:15-38 *)
Definition reconstruction_PositionRecon : plugin :=
  mk_plugin "PositionRecon" ["rec_x"; "rec_y"; "rec_z"; "rec_r"]
    ["x"; "y"; "z"; "num_electron_drifted"]
    []
    [cf_map "posrec_reso" "_posrec_reso.json"]
    ["self"; "key"; "parameters"; "x"; "y"; "z"; "num_electron_drifted"].

(** plugins/reconstruction.py:42-66 *)
Definition reconstruction_S1 : plugin :=
  mk_plugin "S1" ["s1_area"]
    ["num_s1_pe"]
    []
    [cf_map "s1_bias_3f" "_s1_bias.json";
     cf_map "s1_smear_3f" "_s1_smearing.json"]
    ["self"; "key"; "parameters"; "num_s1_pe"].

(** plugins/reconstruction.py:70-94 *)
Definition reconstruction_S2 : plugin :=
  mk_plugin "S2" ["s2_area"]
    ["num_s2_pe"]
    []
    [cf_map "s2_bias" "_s2_bias.json";
     cf_map "s2_smear" "_s2_smearing.json"]
    ["self"; "key"; "parameters"; "num_s2_pe"].

(** plugins/reconstruction.py:98-113 *)
Definition reconstruction_S1Correction : plugin :=
  mk_plugin "S1Correction" ["s1_correction"]
    ["rec_x"; "rec_y"; "rec_z"]
    []
    [cf_map "s1_correction" "_s1_correction.json"]
    ["self"; "key"; "parameters"; "rec_x"; "rec_y"; "rec_z"].

(** plugins/reconstruction.py:117-132 *)
Definition reconstruction_S2Correction : plugin :=
  mk_plugin "S2Correction" ["s2_correction"]
    ["rec_x"; "rec_y"]
    []
    [cf_map "s2_correction" "_s2_correction.json"]
    ["self"; "key"; "parameters"; "rec_x"; "rec_y"].

(** plugins/reconstruction.py:136-143 *)
Definition reconstruction_cS1 : plugin :=
  mk_plugin "cS1" ["cs1"]
    ["s1_area"; "s1_correction"]
    []
    []
    ["self"; "key"; "parameters"; "s1_area"; "s1_correction"].

(** plugins/reconstruction.py:147-154 *)
Definition reconstruction_cS2 : plugin :=
  mk_plugin "cS2" ["cs2"]
    ["s2_area"; "s2_correction"; "drift_survive_prob"]
    []
    []
    ["self"; "key"; "parameters"; "s2_area"; "s2_correction"; "drift_survive_prob"].

(** The classes exported by the module (the decorator @export), in the order of the file. *)
Definition export_reconstruction : list plugin :=
  [reconstruction_PositionRecon;
   reconstruction_S1;
   reconstruction_S2;
   reconstruction_S1Correction;
   reconstruction_S2Correction;
   reconstruction_cS1;
   reconstruction_cS2].

(** component.py:259-265: the plugin classes in the order of [dir(module)], the imported base
    class among them. *)
Definition dir_reconstruction : list plugin :=
  [base_plugin;
   reconstruction_PositionRecon;
   reconstruction_S1;
   reconstruction_S1Correction;
   reconstruction_S2;
   reconstruction_S2Correction;
   reconstruction_cS1;
   reconstruction_cS2].

(** * appletree/plugins/efficiency.py *)

(** plugins/efficiency.py:13-20 *)
Definition efficiency_S2Threshold : plugin :=
  mk_plugin "S2Threshold" ["acc_s2_threshold"]
    ["s2_area"]
    ["s2_threshold"]
    []
    ["self"; "key"; "parameters"; "s2_area"].

(** plugins/efficiency.py:24-41 *)
Definition efficiency_S1ReconEff : plugin :=
  mk_plugin "S1ReconEff" ["acc_s1_recon_eff"]
    ["num_s1_phd"]
    []
    [cf_sigma "s1_eff_3f" (VStr "_3fold_recon_eff.json")]
    ["self"; "key"; "parameters"; "num_s1_phd"].

(** plugins/efficiency.py:45-62 *)
Definition efficiency_S1CutAccept : plugin :=
  mk_plugin "S1CutAccept" ["cut_acc_s1"]
    ["s1_area"]
    []
    [cf_sigma "s1_cut_acc" (VList [VStr "_s1_cut_acc.json"; VStr "_s1_cut_acc.json"; VStr "_s1_cut_acc.json"])]
    ["self"; "key"; "parameters"; "s1_area"].

(** plugins/efficiency.py:66-83 *)
Definition efficiency_S2CutAccept : plugin :=
  mk_plugin "S2CutAccept" ["cut_acc_s2"]
    ["s2_area"]
    []
    [cf_sigma "s2_cut_acc" (VList [VStr "_s2_cut_acc.json"; VStr "_s2_cut_acc.json"; VStr "_s2_cut_acc.json"; VStr "s2_cut_acc_sigma"])]
    ["self"; "key"; "parameters"; "s2_area"].

(** plugins/efficiency.py:87-94 *)
Definition efficiency_Eff : plugin :=
  mk_plugin "Eff" ["eff"]
    ["acc_s2_threshold"; "acc_s1_recon_eff"; "cut_acc_s1"; "cut_acc_s2"]
    []
    []
    ["self"; "key"; "parameters"; "acc_s2_threshold"; "acc_s1_recon_eff"; "cut_acc_s1"; "cut_acc_s2"].

(** The classes exported by the module (the decorator @export), in the order of the file. *)
Definition export_efficiency : list plugin :=
  [efficiency_S2Threshold;
   efficiency_S1ReconEff;
   efficiency_S1CutAccept;
   efficiency_S2CutAccept;
   efficiency_Eff].

(** component.py:259-265: the plugin classes in the order of [dir(module)], the imported base
    class among them. *)
Definition dir_efficiency : list plugin :=
  [efficiency_Eff;
   base_plugin;
   efficiency_S1CutAccept;
   efficiency_S1ReconEff;
   efficiency_S2CutAccept;
   efficiency_S2Threshold].

(** * appletree/plugins/nestv2.py *)

(** plugins/nestv2.py:21-46 *)
Definition nestv2_MonoEnergiesSpectra : plugin :=
  mk_plugin "MonoEnergiesSpectra" ["energy"; "energy_center"]
    ["batch_size"]
    []
    [cf_set "energy_twohalfnorm" (VList [VList [VStr "mu"; VStr "sigma_pos"; VStr "sigma_neg"]; VList [VList [VNum 1000]; VList [VNum 100]; VList [VNum 100]]])]
    ["self"; "key"; "parameters"; "batch_size"].

(** plugins/nestv2.py:50-76 *)
Definition nestv2_UniformEnergiesSpectra : plugin :=
  mk_plugin "UniformEnergiesSpectra" ["energy"]
    ["batch_size"]
    []
    [cf_constant "clip_lower_energy" (VNum 500);
     cf_constant "clip_upper_energy" (VNum 2500)]
    ["self"; "key"; "parameters"; "batch_size"].

(** plugins/nestv2.py:80-88 *)
Definition nestv2_TotalQuanta : plugin :=
  mk_plugin "TotalQuanta" ["_Nq"]
    ["energy"]
    ["alpha"; "beta"]
    []
    ["self"; "key"; "parameters"; "energy"].

(** plugins/nestv2.py:92-102 *)
Definition nestv2_ThomasImelBox : plugin :=
  mk_plugin "ThomasImelBox" ["ThomasImel"]
    ["energy"; "field"]
    ["gamma"; "delta"; "liquid_xe_density"]
    []
    ["self"; "key"; "parameters"; "energy"; "field"].

(** plugins/nestv2.py:106-116 *)
Definition nestv2_QyNR : plugin :=
  mk_plugin "QyNR" ["charge_yield"]
    ["energy"; "ThomasImel"]
    ["epsilon"; "zeta"; "eta"]
    []
    ["self"; "key"; "parameters"; "energy"; "ThomasImel"].

(** plugins/nestv2.py:120-130 *)
Definition nestv2_LyNR : plugin :=
  mk_plugin "LyNR" ["light_yield"]
    ["energy"; "_Nq"; "charge_yield"]
    ["theta"; "iota"]
    []
    ["self"; "key"; "parameters"; "energy"; "_Nq"; "charge_yield"].

(** plugins/nestv2.py:134-144 *)
Definition nestv2_MeanNphNe : plugin :=
  mk_plugin "MeanNphNe" ["_Nph"; "_Ne"]
    ["light_yield"; "charge_yield"; "energy"]
    []
    []
    ["self"; "key"; "parameters"; "light_yield"; "charge_yield"; "energy"].

(** plugins/nestv2.py:148-163 *)
Definition nestv2_MeanExcitonIon : plugin :=
  mk_plugin "MeanExcitonIon" ["_Nex"; "_Ni"; "nex_ni_ratio"; "alf"; "elecFrac"; "recombProb"]
    ["ThomasImel"; "_Nph"; "_Ne"]
    []
    []
    ["self"; "key"; "parameters"; "ThomasImel"; "_Nph"; "_Ne"].

(** plugins/nestv2.py:167-187 *)
Definition nestv2_TrueExcitonIonNR : plugin :=
  mk_plugin "TrueExcitonIonNR" ["Ni"; "Nex"; "Nq"]
    ["_Nph"; "_Ne"; "nex_ni_ratio"; "alf"]
    ["fano_ni"; "fano_nex"]
    []
    ["self"; "key"; "parameters"; "_Nph"; "_Ne"; "nex_ni_ratio"; "alf"].

(** plugins/nestv2.py:191-202 *)
Definition nestv2_OmegaNR : plugin :=
  mk_plugin "OmegaNR" ["omega"; "Variance"]
    ["elecFrac"; "recombProb"; "Ni"]
    ["A"; "xi"; "omega"]
    []
    ["self"; "key"; "parameters"; "elecFrac"; "recombProb"; "Ni"].

(** plugins/nestv2.py:206-232 *)
Definition nestv2_TruePhotonElectronNR : plugin :=
  mk_plugin "TruePhotonElectronNR" ["num_photon"; "num_electron"]
    ["recombProb"; "Variance"; "Ni"; "Nex"; "Nq"]
    ["alpha2"]
    []
    ["self"; "key"; "parameters"; "recombProb"; "Variance"; "Ni"; "Nex"; "Nq"].

(** plugins/nestv2.py:236-265 *)
Definition nestv2_MonoEnergiesClipEff : plugin :=
  mk_plugin "MonoEnergiesClipEff" ["eff"]
    ["energy_center"]
    []
    [cf_constant "clip_lower_energy" (VNum 500);
     cf_constant "clip_upper_energy" (VNum 2500)]
    ["self"; "key"; "parameters"; "energy_center"].

(** plugins/nestv2.py:269-282 *)
Definition nestv2_BandEnergiesClipEff : plugin :=
  mk_plugin "BandEnergiesClipEff" ["eff"]
    ["energy"]
    []
    []
    ["self"; "key"; "parameters"; "energy"].

(** The classes exported by the module (the decorator @export), in the order of the file. *)
Definition export_nestv2 : list plugin :=
  [nestv2_MonoEnergiesSpectra;
   nestv2_UniformEnergiesSpectra;
   nestv2_TotalQuanta;
   nestv2_ThomasImelBox;
   nestv2_QyNR;
   nestv2_LyNR;
   nestv2_MeanNphNe;
   nestv2_MeanExcitonIon;
   nestv2_TrueExcitonIonNR;
   nestv2_OmegaNR;
   nestv2_TruePhotonElectronNR;
   nestv2_MonoEnergiesClipEff;
   nestv2_BandEnergiesClipEff].

(** component.py:259-265: the plugin classes in the order of [dir(module)], the imported base
    class among them. *)
Definition dir_nestv2 : list plugin :=
  [nestv2_BandEnergiesClipEff;
   nestv2_LyNR;
   nestv2_MeanExcitonIon;
   nestv2_MeanNphNe;
   nestv2_MonoEnergiesClipEff;
   nestv2_MonoEnergiesSpectra;
   nestv2_OmegaNR;
   base_plugin;
   nestv2_QyNR;
   nestv2_ThomasImelBox;
   nestv2_TotalQuanta;
   nestv2_TrueExcitonIonNR;
   nestv2_TruePhotonElectronNR;
   nestv2_UniformEnergiesSpectra].

(** * appletree/plugins/er_nestv2.py *)

(** plugins/er_nestv2.py:20-32 *)
Definition er_nestv2_ExcitonIonRatioER : plugin :=
  mk_plugin "ExcitonIonRatioER" ["nex_ni_ratio"; "alf"]
    ["energy"]
    ["liquid_xe_density"]
    []
    ["self"; "key"; "parameters"; "energy"].

(** plugins/er_nestv2.py:36-88 *)
Definition er_nestv2_QyER : plugin :=
  mk_plugin "QyER" ["charge_yield"]
    ["energy"; "nex_ni_ratio"; "field"]
    ["m1"; "m2"; "m3"; "m4"; "m7"; "m8"; "m9"; "m10"; "w"; "liquid_xe_density"]
    []
    ["self"; "key"; "parameters"; "energy"; "nex_ni_ratio"; "field"].

(** plugins/er_nestv2.py:92-101 *)
Definition er_nestv2_LyER : plugin :=
  mk_plugin "LyER" ["light_yield"]
    ["charge_yield"]
    ["w"]
    []
    ["self"; "key"; "parameters"; "charge_yield"].

(** plugins/er_nestv2.py:105-113 *)
Definition er_nestv2_MeanNphNeER : plugin :=
  mk_plugin "MeanNphNeER" ["_Nph"; "_Ne"]
    ["light_yield"; "charge_yield"; "energy"]
    []
    []
    ["self"; "key"; "parameters"; "light_yield"; "charge_yield"; "energy"].

(** plugins/er_nestv2.py:117-126 *)
Definition er_nestv2_MeanExcitonIonER : plugin :=
  mk_plugin "MeanExcitonIonER" ["elecFrac"; "recombProb"]
    ["nex_ni_ratio"; "_Nph"; "_Ne"]
    []
    []
    ["self"; "key"; "parameters"; "nex_ni_ratio"; "_Nph"; "_Ne"].

(** plugins/er_nestv2.py:130-158 *)
Definition er_nestv2_FanoFactorER : plugin :=
  mk_plugin "FanoFactorER" ["fano_nq"]
    ["_Nph"; "_Ne"; "field"]
    ["delta_f"; "liquid_xe_density"]
    []
    ["self"; "key"; "parameters"; "_Nph"; "_Ne"; "field"].

(** plugins/er_nestv2.py:162-177 *)
Definition er_nestv2_TrueExcitonIonER : plugin :=
  mk_plugin "TrueExcitonIonER" ["Ni"; "Nex"; "Nq"]
    ["_Nph"; "_Ne"; "fano_nq"; "alf"]
    []
    []
    ["self"; "key"; "parameters"; "_Nph"; "_Ne"; "fano_nq"; "alf"].

(** plugins/er_nestv2.py:181-218 *)
Definition er_nestv2_OmegaER : plugin :=
  mk_plugin "OmegaER" ["omega"; "Variance"]
    ["elecFrac"; "recombProb"; "Ni"; "_Ne"; "_Nph"; "field"]
    ["A_er"; "xi_er"; "omega_er"; "alpha3_er"]
    []
    ["self"; "key"; "parameters"; "elecFrac"; "recombProb"; "Ni"; "_Ne"; "_Nph"; "field"].

(** plugins/er_nestv2.py:222-240 *)
Definition er_nestv2_TruePhotonElectronER : plugin :=
  mk_plugin "TruePhotonElectronER" ["num_photon"; "num_electron"]
    ["recombProb"; "Variance"; "Ni"; "Nq"]
    []
    []
    ["self"; "key"; "parameters"; "recombProb"; "Variance"; "Ni"; "Nq"].

(** plugins/er_nestv2.py:244-257 *)
Definition er_nestv2_BandEnergiesClipEff : plugin :=
  mk_plugin "BandEnergiesClipEff" ["eff"]
    ["energy"]
    []
    []
    ["self"; "key"; "parameters"; "energy"].

(** The classes exported by the module (the decorator @export), in the order of the file. *)
Definition export_er_nestv2 : list plugin :=
  [er_nestv2_ExcitonIonRatioER;
   er_nestv2_QyER;
   er_nestv2_LyER;
   er_nestv2_MeanNphNeER;
   er_nestv2_MeanExcitonIonER;
   er_nestv2_FanoFactorER;
   er_nestv2_TrueExcitonIonER;
   er_nestv2_OmegaER;
   er_nestv2_TruePhotonElectronER;
   er_nestv2_BandEnergiesClipEff].

(** component.py:259-265: the plugin classes in the order of [dir(module)], the imported base
    class among them. *)
Definition dir_er_nestv2 : list plugin :=
  [er_nestv2_BandEnergiesClipEff;
   er_nestv2_ExcitonIonRatioER;
   er_nestv2_FanoFactorER;
   er_nestv2_LyER;
   er_nestv2_MeanExcitonIonER;
   er_nestv2_MeanNphNeER;
   er_nestv2_OmegaER;
   base_plugin;
   er_nestv2_QyER;
   er_nestv2_TrueExcitonIonER;
   er_nestv2_TruePhotonElectronER].

(** plugins/__init__.py:1-24: the star imports, in order; a later class replaces an earlier one of
    the same name. *)
Definition star_imports : list plugin :=
  export_common ++ export_er_microphys ++ export_lyqy ++ export_detector ++
  export_reconstruction ++ export_efficiency ++ export_nestv2 ++ export_er_nestv2.

Definition published_classes : dict plugin :=
  fold_left (fun ns p => set (p_name p) p ns) star_imports [].
Definition appletree_plugins (n : string) : option plugin := get n published_classes.

(** * appletree/components: the calls of register made by the constructors *)

Definition one_by_one (ps : list plugin) : list (list plugin) := map (fun p => [p]) ps.

(** components/er.py:6-18 *)
Definition calls_ERBand : list (list plugin) :=
  one_by_one ([common_UniformEnergySpectra; common_PositionSpectra] ++ dir_er_microphys ++ dir_detector ++ dir_reconstruction ++ dir_efficiency).

(** components/er.py:21-33 *)
Definition calls_ERPeak : list (list plugin) :=
  one_by_one ([common_MonoEnergySpectra; common_PositionSpectra] ++ dir_er_microphys ++ dir_detector ++ dir_reconstruction ++ dir_efficiency).

(** components/er.py:36-48 *)
Definition calls_ERBandNestV2 : list (list plugin) :=
  one_by_one ([common_UniformEnergySpectra; common_PositionSpectra] ++ dir_er_nestv2 ++ dir_detector ++ dir_reconstruction ++ dir_efficiency).

(** components/er.py:51-63 *)
Definition calls_ERPeakNestV2 : list (list plugin) :=
  one_by_one ([common_MonoEnergySpectra; common_PositionSpectra] ++ dir_er_nestv2 ++ dir_detector ++ dir_reconstruction ++ dir_efficiency).

(** components/nr.py:6-18 *)
Definition calls_NR : list (list plugin) :=
  one_by_one ([common_FixedEnergySpectra; common_PositionSpectra] ++ dir_lyqy ++ dir_detector ++ dir_reconstruction ++ dir_efficiency).

(** components/yields.py:6-17; apt.plugins.X is the class published under that name. *)
Definition calls_MonoEnergiesYields : list (list plugin) :=
  one_by_one [nestv2_MonoEnergiesSpectra;
    common_PositionSpectra;
    detector_EField;
    nestv2_TotalQuanta;
    nestv2_ThomasImelBox;
    nestv2_QyNR;
    nestv2_LyNR;
    nestv2_MonoEnergiesClipEff].

(** components/yields.py:20-31; apt.plugins.X is the class published under that name. *)
Definition calls_BandEnergiesYields : list (list plugin) :=
  one_by_one [nestv2_UniformEnergiesSpectra;
    common_PositionSpectra;
    detector_EField;
    nestv2_TotalQuanta;
    nestv2_ThomasImelBox;
    nestv2_QyNR;
    nestv2_LyNR;
    er_nestv2_BandEnergiesClipEff].

(** The simulated components of appletree.components with the calls of their constructors. *)
Definition shipped_components : list (string * list (list plugin)) :=
  [("ERBand", calls_ERBand);
   ("ERPeak", calls_ERPeak);
   ("ERBandNestV2", calls_ERBandNestV2);
   ("ERPeakNestV2", calls_ERPeakNestV2);
   ("NR", calls_NR);
   ("MonoEnergiesYields", calls_MonoEnergiesYields);
   ("BandEnergiesYields", calls_BandEnergiesYields)].
