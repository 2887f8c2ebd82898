(** Model of the simulate functions in appletree/plugins (all modules). No proofs in this file.
    One definition per plugin class; the parameters and configurations a plugin reads are arguments,
    maps are arbitrary functions on floats, applied event by event. Arrays as in ModelRandgen. *)
From Coq Require Import Reals ZArith.
From Verif Require Import Base ModelFloat ModelRandgen.
Local Open Scope fl_scope.

(** Positive part helpers: jnp.clip(x, 0, jnp.inf), jnp.clip(x, 0, 1). *)
Definition clip_pos (x : fl) : fl := fclip x #0 PInf.
Definition clip01 (x : fl) : fl := fclip x #0 #1.
(** jnp.clip on integers *)
Definition zclip (x lo hi : Z) : Z := Z.min (Z.max x lo) hi.
Definition f10 (a b : Z) : fl := Fin (IZR a / IZR b)%R.

Section Plugins.
  Variable o : oracle.
  Variable mode : binmode.
  Variable size : nat. (* number of events, batch_size *)

  (* -------------------------------------------------------------- *)
  (** ** plugins/common.py *)

  (** 14-41 UniformEnergySpectra *)
  Definition UniformEnergySpectra (lower_energy upper_energy : fl) : M (arr fl) :=
    uniform o (fun _ => lower_energy) (fun _ => upper_energy).
  (** 44-61 FixedEnergySpectra *)
  Definition FixedEnergySpectra (energy_spectrum : fl -> fl) : M (arr fl) :=
    p <- uniform o (fun _ => #0) (fun _ => #1);; ret (fun e => energy_spectrum (p e)).
  (** 64-77 MonoEnergySpectra *)
  Definition MonoEnergySpectra (mono_energy : fl) : M (arr fl) := ret (fun _ => mono_energy).
  (** 80-114 PositionSpectra; sine and cosine of finite numbers. *)
  Definition on_fin (f : R -> R) (x : fl) : fl := match x with Fin r => Fin (f r) | _ => NaN end.
  Definition PositionSpectra (z_min z_max r_max : fl) : M (arr fl * arr fl * arr fl) :=
    z <- uniform o (fun _ => z_min) (fun _ => z_max);;
    r2 <- uniform o (fun _ => #0) (fun _ => r_max * r_max);;
    theta <- uniform o (fun _ => #0) (fun _ => #(2 * PI)%R);;
    let r := fun e => fsqrt (r2 e) in
    ret ((fun e => r e * on_fin cos (theta e)), (fun e => r e * on_fin sin (theta e)), z).

  (* -------------------------------------------------------------- *)
  (** ** plugins/er_microphys.py *)

  (** 12-26 Quanta *)
  Definition Quanta (w fano : fl) (energy : arr fl) : M (arr Z) :=
    let mean := fun e => energy e / w in
    let std := fun e => fsqrt (mean e * fano) in
    num_quanta <- truncate_normal o mean std (Some #0) None;;
    ret (fun e => to_int o (fround (num_quanta e))).
  (** 29-39 IonizationER *)
  Definition IonizationER (nex_ni_ratio : fl) (num_quanta : arr Z) : M (arr Z) :=
    let p_ion := #1 / (#1 + nex_ni_ratio) in
    binomial o mode size (fun _ => p_ion) num_quanta.
  (** 42-72 mTI *)
  Definition mTI (w nex_ni_ratio py0 py1 py2 py3 py4 : fl) (energy field : arr fl) : M (arr fl) :=
    ret (fun e =>
      let ni := energy e / w / (#1 + nex_ni_ratio) in
      let ti := ni * py0 * fexp (fneg (energy e) / py1) * fpow o (field e) py2 / #4 in
      let fd := #1 / (#1 + fexp (fneg (energy e - py3) / py4)) in
      let r := where_ (flt ti (f10 1 100)) (ti / #2 - ti * ti / #3) (#1 - flog (#1 + ti) / ti) in
      r * fd).
  (** 75-85 RecombFluct *)
  Definition RecombFluct (rf0 rf1 : fl) (energy : arr fl) : M (arr fl) :=
    ret (fun e => let fd_factor := #1 - fexp (fneg (energy e) / rf1) in clip01 (rf0 * fd_factor)).
  (** 88-96 TrueRecombER *)
  Definition TrueRecombER (recomb_mean recomb_std : arr fl) : M (arr fl) :=
    truncate_normal o recomb_mean recomb_std (Some #0) (Some #1).
  (** 99-109 RecombinationER *)
  Definition RecombinationER (num_quanta num_ion : arr Z) (recomb : arr fl) : M (arr Z * arr Z) :=
    num_electron <- binomial o mode size (fun e => #1 - recomb e) num_ion;;
    ret ((fun e => (num_quanta e - num_electron e)%Z), num_electron).

  (* -------------------------------------------------------------- *)
  (** ** plugins/lyqy.py *)

  (** 13-31 LightYield and 45-63 ChargeYield *)
  Definition LightYield (ly_median : fl -> fl) (t_ly : fl) (energy : arr fl) : M (arr fl) :=
    ret (fun e => clip_pos (ly_median (energy e) * (#1 + t_ly))).
  Definition ChargeYield (qy_median : fl -> fl) (t_qy : fl) (energy : arr fl) : M (arr fl) :=
    ret (fun e => clip_pos (qy_median (energy e) * (#1 + t_qy))).
  (** 34-42 NumberPhoton and 66-74 NumberElectron *)
  Definition NumberPhoton (energy light_yield : arr fl) : M (arr Z) := poisson o (fun e => light_yield e * energy e).
  Definition NumberElectron (energy charge_yield : arr fl) : M (arr Z) := poisson o (fun e => charge_yield e * energy e).

  (* -------------------------------------------------------------- *)
  (** ** plugins/detector.py *)

  (** 13-39 EField *)
  Definition EField (position_dependence : bool) (efield_map : fl -> fl -> fl) (field : fl) (x y z : arr fl) : M (arr fl) :=
    if position_dependence
    then ret (fun e => efield_map (fsqrt (x e * x e + y e * y e)) (z e))
    else ret (fun e => #1 * field).
  (** 42-58 S1LCE and 61-77 S2LCE *)
  Definition S1LCE (s1_lce : fl -> fl -> fl -> fl) (x y z : arr fl) : M (arr fl) := ret (fun e => s1_lce (x e) (y e) (z e)).
  Definition S2LCE (s2_lce : fl -> fl -> fl) (x y : arr fl) : M (arr fl) := ret (fun e => s2_lce (x e) (y e)).
  (** 80-90 PhotonDetection *)
  Definition PhotonDetection (g1 p_dpe : fl) (num_photon : arr Z) (s1_lce : arr fl) : M (arr Z) :=
    binomial o mode size (fun e => clip01 (g1 * s1_lce e / (#1 + p_dpe))) num_photon.
  (** 93-103 S1PE *)
  Definition S1PE (p_dpe : fl) (num_s1_phd : arr Z) : M (arr Z) :=
    num_s1_dpe <- binomial o mode size (fun _ => p_dpe) num_s1_phd;;
    ret (fun e => (num_s1_dpe e + num_s1_phd e)%Z).
  (** 106-125 DriftLoss *)
  Definition DriftLoss (elife : fl -> fl) (drift_velocity elife_sigma : fl) (z : arr fl) : M (arr fl) :=
    p <- uniform o (fun _ => #0) (fun _ => #1);;
    ret (fun e =>
      let lifetime := elife (p e) * (#1 + elife_sigma) in
      fexp (fneg (fabsf (z e)) / drift_velocity / lifetime)).
  (** 128-136 ElectronDrifted *)
  Definition ElectronDrifted (num_electron : arr Z) (drift_survive_prob : arr fl) : M (arr Z) :=
    binomial o mode size drift_survive_prob num_electron.
  (** 139-166 S2PE *)
  Definition S2PE (gas_gain_relative : fl -> fl -> fl) (g2 gas_gain p_dpe : fl)
      (num_electron_drifted : arr Z) (s2_lce x y : arr fl) : M (arr fl) :=
    let rel := fun e => gas_gain_relative (x e) (y e) in
    num_electron_extracted <- binomial o mode size (fun e => g2 / (gas_gain * rel e)) num_electron_drifted;;
    let mean_s2_phd := fun e =>
      of_int (num_electron_extracted e) * (gas_gain * rel e * s2_lce e / (#1 + p_dpe)) in
    num_s2_phd <- poisson o mean_s2_phd;;
    num_dpe <- binomial o mode size (fun _ => p_dpe) num_s2_phd;;
    ret (fun e => of_int (num_s2_phd e + num_dpe e)).

  (* -------------------------------------------------------------- *)
  (** ** plugins/reconstruction.py *)

  (** 14-38 PositionRecon *)
  Definition PositionRecon (posrec_reso : fl -> fl) (x y z : arr fl) (num_electron_drifted : arr Z)
    : M (arr fl * arr fl * arr fl * arr fl) :=
    let std := fun e => posrec_reso (of_int (num_electron_drifted e)) / fsqrt #2 in
    delta_x <- normal o (fun _ => #0) std;;
    delta_y <- normal o (fun _ => #0) std;;
    let rec_x := fun e => x e + delta_x e in
    let rec_y := fun e => y e + delta_y e in
    ret (rec_x, rec_y, z, (fun e => fsqrt (rec_x e * rec_x e + rec_y e * rec_y e))).
  (** 41-66 S1 and 69-94 S2 *)
  Definition S1 (s1_bias_3f s1_smear_3f : fl -> fl) (num_s1_pe : arr Z) : M (arr fl) :=
    bias <- normal o (fun e => s1_bias_3f (of_int (num_s1_pe e))) (fun e => s1_smear_3f (of_int (num_s1_pe e)));;
    ret (fun e => of_int (num_s1_pe e) * (#1 + bias e)).
  Definition S2 (s2_bias s2_smear : fl -> fl) (num_s2_pe : arr fl) : M (arr fl) :=
    bias <- normal o (fun e => s2_bias (num_s2_pe e)) (fun e => s2_smear (num_s2_pe e));;
    ret (fun e => num_s2_pe e * (#1 + bias e)).
  (** 97-113 S1Correction and 116-132 S2Correction *)
  Definition S1Correction (m : fl -> fl -> fl -> fl) (rec_x rec_y rec_z : arr fl) : M (arr fl) :=
    ret (fun e => m (rec_x e) (rec_y e) (rec_z e)).
  Definition S2Correction (m : fl -> fl -> fl) (rec_x rec_y : arr fl) : M (arr fl) := ret (fun e => m (rec_x e) (rec_y e)).
  (** 135-143 cS1 and 146-154 cS2 *)
  Definition cS1 (s1_area s1_correction : arr fl) : M (arr fl) := ret (fun e => s1_area e / s1_correction e).
  Definition cS2 (s2_area s2_correction drift_survive_prob : arr fl) : M (arr fl) :=
    ret (fun e => s2_area e / s2_correction e / drift_survive_prob e).

  (* -------------------------------------------------------------- *)
  (** ** plugins/efficiency.py *)

  (** 12-20 S2Threshold *)
  Definition S2Threshold (s2_threshold : fl) (s2_area : arr fl) : M (arr fl) :=
    ret (fun e => where_ (flt s2_threshold (s2_area e)) #1 #0).
  (** 23-41 S1ReconEff, 44-62 S1CutAccept, 65-83 S2CutAccept; [m] is SigmaMap.apply with the
      parameters. *)
  Definition S1ReconEff (m : fl -> fl) (num_s1_phd : arr Z) : M (arr fl) := ret (fun e => clip01 (m (of_int (num_s1_phd e)))).
  Definition S1CutAccept (m : fl -> fl) (s1_area : arr fl) : M (arr fl) := ret (fun e => clip01 (m (s1_area e))).
  Definition S2CutAccept (m : fl -> fl) (s2_area : arr fl) : M (arr fl) := ret (fun e => clip01 (m (s2_area e))).
  (** 86-94 Eff *)
  Definition Eff (acc_s2_threshold acc_s1_recon_eff cut_acc_s1 cut_acc_s2 : arr fl) : M (arr fl) :=
    ret (fun e => acc_s2_threshold e * acc_s1_recon_eff e * cut_acc_s1 e * cut_acc_s2 e).

  (* -------------------------------------------------------------- *)
  (** ** plugins/nestv2.py *)

  (** 20-46 MonoEnergiesSpectra; positions run over the flattened (batch_size, set_volume) array. *)
  Definition MonoEnergiesSpectra (mu sigma_pos sigma_neg : arr fl) : M (arr fl * arr fl) :=
    energy <- twohalfnorm o mu sigma_pos sigma_neg;;
    ret ((fun e => clip_pos (energy e)), mu).
  (** 49-76 UniformEnergiesSpectra *)
  Definition UniformEnergiesSpectra (clip_lower_energy clip_upper_energy : fl) : M (arr fl) :=
    uniform o (fun _ => clip_lower_energy) (fun _ => clip_upper_energy).
  (** 79-88 TotalQuanta *)
  Definition TotalQuanta (alpha beta : fl) (energy : arr fl) : M (arr fl) := ret (fun e => alpha * fpow o (energy e) beta).
  (** 91-102 ThomasImelBox *)
  Definition ThomasImelBox (gamma delta liquid_xe_density : fl) (field : arr fl) : M (arr fl) :=
    ret (fun e => #1 * (gamma * fpow o (field e) delta) * fpow o (liquid_xe_density / f10 29 10) (f10 3 10)).
  (** 105-116 QyNR *)
  Definition QyNR (epsilon zeta eta : fl) (energy ThomasImel : arr fl) : M (arr fl) :=
    ret (fun e =>
      let charge_yield := #1 / ThomasImel e / fsqrt (energy e + epsilon) in
      clip_pos (charge_yield * (#1 - #1 / (#1 + fpow o (energy e / zeta) eta)))).
  (** 119-130 LyNR *)
  Definition LyNR (theta iota : fl) (energy _Nq charge_yield : arr fl) : M (arr fl) :=
    ret (fun e =>
      let light_yield := _Nq e / energy e - charge_yield e in
      clip_pos (light_yield * (#1 - #1 / (#1 + fpow o (energy e / theta) iota)))).
  (** 133-144 MeanNphNe *)
  Definition MeanNphNe (light_yield charge_yield energy : arr fl) : M (arr fl * arr fl) :=
    let nph := fun e => light_yield e * energy e in
    let ne := fun e => charge_yield e * energy e in
    let mask := fun e => fle #1 (nph e + ne e) in
    ret ((fun e => where_ (mask e) (nph e) #0), (fun e => where_ (mask e) (ne e) #0)).
  (** 147-163 MeanExcitonIon *)
  Record exciton_ion := mk_ei { ei_nex : fl; ei_ni : fl; ei_ratio : fl; ei_alf : fl; ei_elecFrac : fl; ei_recombProb : fl }.
  Definition mean_exciton_ion (ti nph ne : fl) : exciton_ion :=
    let nex := (#(-1) / ti) * (#4 * fexp (ne * ti / #4) - (ne + nph) * ti - #4) in
    let ni := (#4 / ti) * (fexp (ne * ti / #4) - #1) in
    let ratio := where_ (flt #0 ni) (nex / ni) #1 in
    let nq := nph + ne in
    let alf := #1 / (#1 + ratio) in
    let elecFrac := where_ (flt #0 nq) (ne / nq) #0 in
    mk_ei nex ni ratio alf elecFrac (#1 - (ratio + #1) * elecFrac).
  Definition MeanExcitonIon (ThomasImel _Nph _Ne : arr fl) : M (arr exciton_ion) :=
    ret (fun e => mean_exciton_ion (ThomasImel e) (_Nph e) (_Ne e)).
  (** 166-187 TrueExcitonIonNR *)
  Definition TrueExcitonIonNR (fano_ni fano_nex : fl) (_Nph _Ne nex_ni_ratio alf : arr fl) : M (arr Z * arr Z * arr Z) :=
    let nq_mean := fun e => _Nph e + _Ne e in
    ni <- truncate_normal o (fun e => nq_mean e * alf e) (fun e => fsqrt (fano_ni * nq_mean e * alf e)) (Some #0) None;;
    let Ni := fun e => to_int o (fround (ni e)) in
    nex <- truncate_normal o (fun e => nq_mean e * nex_ni_ratio e * alf e)
             (fun e => fsqrt (fano_nex * nq_mean e * nex_ni_ratio e * alf e)) (Some #0) None;;
    let Nex := fun e => to_int o (fround (nex e)) in
    ret (Ni, Nex, (fun e => (Nex e + Ni e)%Z)).
  (** 190-202 OmegaNR *)
  Definition OmegaNR (A xi omega : fl) (elecFrac recombProb : arr fl) (Ni : arr Z) : M (arr fl * arr fl) :=
    let om := fun e => A * fexp (#(-1) / #2 * ((elecFrac e - xi) * (elecFrac e - xi)) / (omega * omega)) in
    ret (om, (fun e => recombProb e * (#1 - recombProb e) * of_int (Ni e) + om e * om e * of_int (Ni e) * of_int (Ni e))).
  (** 205-232 TruePhotonElectronNR *)
  Definition TruePhotonElectronNR (alpha2 : fl) (recombProb Variance : arr fl) (Ni Nex Nq : arr Z) : M (arr Z * arr Z) :=
    let widthCorrection := fsqrt (#1 - (#2 / #PI) * (alpha2 * alpha2) / (#1 + alpha2 * alpha2)) in
    let muCorrection := fun e =>
      (fsqrt (Variance e) / widthCorrection) * (alpha2 / fsqrt (#1 + alpha2 * alpha2)) * #2 * (#1 / fsqrt (#2 * #PI)) in
    num_electron <- skewnormal o (fun _ => alpha2)
      (fun e => (#1 - recombProb e) * of_int (Ni e) - muCorrection e)
      (fun e => fsqrt (Variance e) / widthCorrection);;
    let num_electron := fun e => zclip (to_int o (fround (num_electron e))) 0 (Ni e) in
    ret ((fun e => Z.max (Nq e - num_electron e) (Nex e)), num_electron).
  (** 235-265 MonoEnergiesClipEff *)
  Definition MonoEnergiesClipEff (clip_lower_energy clip_upper_energy : fl) (energy_center : arr fl) : M (arr fl) :=
    ret (fun e => where_ (fle clip_lower_energy (energy_center e) && fle (energy_center e) clip_upper_energy) #1 #0).
  (** 268-282 BandEnergiesClipEff (also er_nestv2.py 243-257) *)
  Definition BandEnergiesClipEff (energy : arr fl) : M (arr fl) := ret (fun _ => #1).

  (* -------------------------------------------------------------- *)
  (** ** plugins/er_nestv2.py *)

  (** 19-32 ExcitonIonRatioER *)
  Definition ferf (x : fl) : fl :=
    match x with Fin r => Fin (o_erf o r) | PInf => #1 | NInf => #(-1) | NaN => NaN end.
  Definition ExcitonIonRatioER (liquid_xe_density : fl) (energy : arr fl) : M (arr fl * arr fl) :=
    let ratio := fun e => (f10 67366 1000000 + f10 39693 1000000 * liquid_xe_density) * ferf (energy e * f10 5 100) in
    ret (ratio, (fun e => #1 / (#1 + ratio e))).
  (** 35-88 QyER; jnp.log10 of the field and jnp.power are [fpow] and the logarithm over ln 10. *)
  Definition flog10 (x : fl) : fl := flog x / flog #10.
  Definition QyER (m1 m2 m3 m4 m7 m8 m9 m10 w liquid_xe_density : fl) (energy nex_ni_ratio field : arr fl) : M (arr fl) :=
    ret (fun e =>
      let E := energy e in
      let F := field e in
      let c1 := f10 3066 100 in
      let M1 := c1 + (m1 - c1) / fpow o (#1 + fpow o (F / f10 73855 1000) (f10 20318 10000)) (f10 41883 100000) in
      let M2 := m2 in
      let M3 := flog10 F * f10 13946236 100000000 + m3 in
      let c4 := f10 182217496 100000000 in
      let M4 := c4 + (m4 - c4) / (#1 + fpow o (F / f10 14465029656 100000000) (f10 (-280532006) 100000000)) in
      let M5 := #1 / w / (#1 + nex_ni_ratio e) - M1 in
      let c7 := f10 702921301 100000000 in
      let M7 := c7 + (m7 - c7) / (#1 + fpow o (F / f10 25648156448 100000000) (f10 129119251 100000000)) in
      let M8 := m8 in
      let M9 := m9 in
      let c10 := f10 508273937 10000000000 in
      let M10 := c10 + (m10 - c10) / (#1 + fpow o (F / f10 139260460 1000000) (f10 (-65763592) 100000000)) in
      let q := #1 * M1 in
      let q := q + (M2 - M1) / fpow o (#1 + fpow o (E / M3) M4) M9 in
      let q := q + #1 * M5 in
      let q := q + fneg M5 / fpow o (#1 + fpow o (E / M7) M8) M10 in
      let q := clip_pos q in
      let D := liquid_xe_density in
      let coeff_TI := fpow o (#1 / D) (f10 3 10) in
      let coeff_Ni := fpow o (#1 / D) (f10 14 10) in
      let coeff_OL := fpow o (#1 / D) (f10 (-17) 10) / flog (#1 + coeff_TI * coeff_Ni * fpow o D (f10 17 10)) in
      q * (coeff_OL * flog (#1 + coeff_TI * coeff_Ni * fpow o D (f10 17 10)) * fpow o D (f10 (-17) 10))).
  (** 91-101 LyER *)
  Definition LyER (w : fl) (charge_yield : arr fl) : M (arr fl) := ret (fun e => fmax (#1 / w - charge_yield e) #0).
  (** 104-113 MeanNphNeER *)
  Definition MeanNphNeER (light_yield charge_yield energy : arr fl) : M (arr fl * arr fl) :=
    ret ((fun e => light_yield e * energy e), (fun e => charge_yield e * energy e)).
  (** 116-126 MeanExcitonIonER *)
  Definition MeanExcitonIonER (nex_ni_ratio _Nph _Ne : arr fl) : M (arr fl * arr fl) :=
    let elecFrac := fun e => _Ne e / (_Nph e + _Ne e) in
    ret (elecFrac, (fun e => fmax (#1 - (nex_ni_ratio e + #1) * elecFrac e) #0)).
  (** 129-158 FanoFactorER *)
  Definition fsign (x : fl) : fl :=
    match x with
    | Fin r => match total_order_T r 0 with inleft (left _) => #(-1) | inleft (right _) => #0 | inright _ => #1 end
    | PInf => #1 | NInf => #(-1) | NaN => NaN
    end.
  Definition FanoFactorER (delta_f liquid_xe_density : fl) (_Nph _Ne field : arr fl) : M (arr fl) :=
    ret (fun e =>
      let sign := fsign delta_f in
      let abs_delta_f := fabsf delta_f in
      let fano_nq := (sign + #1) / #2 * #1 * abs_delta_f in
      let d := liquid_xe_density in
      let const := f10 12707 100000 - f10 29623 1000000 * d - f10 57042 10000000 * (d * d) + f10 15957 10000000 * (d * d * d) in
      fano_nq + (#1 - sign) / #2 * (const + abs_delta_f * fsqrt ((_Nph e + _Ne e) * field e))).
  (** 161-177 TrueExcitonIonER *)
  Definition TrueExcitonIonER (_Nph _Ne fano_nq alf : arr fl) : M (arr Z * arr Z * arr Z) :=
    let nq_mean := fun e => _Nph e + _Ne e in
    nq <- truncate_normal o nq_mean (fun e => fsqrt (fano_nq e * nq_mean e)) (Some #0) (Some PInf);;
    let Nq := fun e => to_int o (fround (nq e)) in
    ni <- binomial o mode size alf Nq;;
    let Nex := fun e => (Nq e - ni e)%Z in
    ret ((fun e => zclip (ni e) 0 (Nq e)), (fun e => zclip (Nex e) 0 (Nq e)), Nq).
  (** 180-218 OmegaER *)
  Definition OmegaER (A_er xi_er omega_er alpha3_er : fl) (elecFrac recombProb : arr fl) (Ni : arr Z) (field : arr fl)
    : M (arr fl * arr fl) :=
    let skew := alpha3_er in
    let wide := omega_er in
    let cntr := xi_er in
    let sqrt2 := fsqrt #2 in
    let mode := cntr + fsqrt (#2 / #PI) * skew * wide / fsqrt (#1 + skew * skew) in
    let half := #(-1) / #2 in
    let shape := fun x => fexp (half * ((x - cntr) * (x - cntr)) / (wide * wide)) * (#1 + ferf (skew * (x - cntr) / (wide * sqrt2))) in
    let om := fun e =>
      let ampl := f10 86036 1000000 + (A_er - f10 86036 1000000) /
                    fpow o (#1 + fpow o (field e / f10 2952 10) (f10 2516 10)) (f10 69114 10000000) in
      let norm := #1 / shape mode in
      fmax (norm * ampl * shape (elecFrac e)) #0 in
    ret (om, (fun e => recombProb e * (#1 - recombProb e) * of_int (Ni e) + om e * om e * of_int (Ni e) * of_int (Ni e))).
  (** 221-240 TruePhotonElectronER; jnp.clip(Nq - num_electron, 0, jnp.inf) *)
  Definition TruePhotonElectronER (recombProb Variance : arr fl) (Ni Nq : arr Z) : M (arr Z * arr Z) :=
    num_electron <- normal o (fun e => (#1 - recombProb e) * of_int (Ni e)) (fun e => fsqrt (Variance e));;
    let num_electron := fun e => zclip (to_int o (fround (num_electron e))) 0 (Ni e) in
    ret ((fun e => Z.max (Nq e - num_electron e) 0), num_electron).
End Plugins.
