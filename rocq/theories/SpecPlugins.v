(** Vocabulary for the properties of the plugins. *)
From Coq Require Import Reals ZArith.
From Verif Require Import Base ModelFloat ModelRandgen ModelPlugins SpecRandgen.
Local Open Scope R_scope.

Definition positive (x : fl) : Prop := exists r, x = Fin r /\ 0 < r.

(** The Thomas-Imel recombination probability for the box parameter [t]. *)
Definition thomas_imel (t : R) : R := 1 - ln (1 + t) / t.

(** Whole number bookkeeping of one event: electrons come from ions, photons from excitons and
    recombined ions, nothing is lost. *)
Definition conserved (quanta ions excitons photons electrons : Z) : Prop :=
  (ions + excitons = quanta /\ 0 <= electrons <= ions /\ 0 <= excitons <= photons /\ photons + electrons = quanta)%Z.

(** Every plugin of appletree/plugins except MonoEnergiesSpectra. *)
Section Shipped.
  Variables (o : oracle) (mode : binmode) (size : nat).
  Inductive shipped : forall A, M A -> Prop :=
  | sh_UniformEnergySpectra a b : shipped _ (UniformEnergySpectra o a b)
  | sh_FixedEnergySpectra m : shipped _ (FixedEnergySpectra o m)
  | sh_MonoEnergySpectra a : shipped _ (MonoEnergySpectra a)
  | sh_PositionSpectra a b c : shipped _ (PositionSpectra o a b c)
  | sh_Quanta a b e : shipped _ (Quanta o a b e)
  | sh_IonizationER a n : shipped _ (IonizationER o mode size a n)
  | sh_mTI a b c d e f g x y : shipped _ (mTI o a b c d e f g x y)
  | sh_RecombFluct a b x : shipped _ (RecombFluct a b x)
  | sh_TrueRecombER a b : shipped _ (TrueRecombER o a b)
  | sh_RecombinationER a b c : shipped _ (RecombinationER o mode size a b c)
  | sh_LightYield m a x : shipped _ (LightYield m a x)
  | sh_ChargeYield m a x : shipped _ (ChargeYield m a x)
  | sh_NumberPhoton a b : shipped _ (NumberPhoton o a b)
  | sh_NumberElectron a b : shipped _ (NumberElectron o a b)
  | sh_EField b m f x y z : shipped _ (EField b m f x y z)
  | sh_S1LCE m x y z : shipped _ (S1LCE m x y z)
  | sh_S2LCE m x y : shipped _ (S2LCE m x y)
  | sh_PhotonDetection a b n x : shipped _ (PhotonDetection o mode size a b n x)
  | sh_S1PE a n : shipped _ (S1PE o mode size a n)
  | sh_DriftLoss m a b z : shipped _ (DriftLoss o m a b z)
  | sh_ElectronDrifted n p : shipped _ (ElectronDrifted o mode size n p)
  | sh_S2PE m a b c n l x y : shipped _ (S2PE o mode size m a b c n l x y)
  | sh_PositionRecon m x y z n : shipped _ (PositionRecon o m x y z n)
  | sh_S1 a b n : shipped _ (S1 o a b n)
  | sh_S2 a b n : shipped _ (S2 o a b n)
  | sh_S1Correction m x y z : shipped _ (S1Correction m x y z)
  | sh_S2Correction m x y : shipped _ (S2Correction m x y)
  | sh_cS1 a b : shipped _ (cS1 a b)
  | sh_cS2 a b c : shipped _ (cS2 a b c)
  | sh_S2Threshold a x : shipped _ (S2Threshold a x)
  | sh_S1ReconEff m n : shipped _ (S1ReconEff m n)
  | sh_S1CutAccept m x : shipped _ (S1CutAccept m x)
  | sh_S2CutAccept m x : shipped _ (S2CutAccept m x)
  | sh_Eff a b c d : shipped _ (Eff a b c d)
  | sh_UniformEnergiesSpectra a b : shipped _ (UniformEnergiesSpectra o a b)
  | sh_TotalQuanta a b x : shipped _ (TotalQuanta o a b x)
  | sh_ThomasImelBox a b c x : shipped _ (ThomasImelBox o a b c x)
  | sh_QyNR a b c x y : shipped _ (QyNR o a b c x y)
  | sh_LyNR a b x y z : shipped _ (LyNR o a b x y z)
  | sh_MeanNphNe a b c : shipped _ (MeanNphNe a b c)
  | sh_MeanExcitonIon a b c : shipped _ (MeanExcitonIon a b c)
  | sh_TrueExcitonIonNR a b c d e f : shipped _ (TrueExcitonIonNR o a b c d e f)
  | sh_OmegaNR a b c d e f : shipped _ (OmegaNR a b c d e f)
  | sh_TruePhotonElectronNR a b c d e f : shipped _ (TruePhotonElectronNR o a b c d e f)
  | sh_MonoEnergiesClipEff a b c : shipped _ (MonoEnergiesClipEff a b c)
  | sh_BandEnergiesClipEff a : shipped _ (BandEnergiesClipEff a)
  | sh_ExcitonIonRatioER a b : shipped _ (ExcitonIonRatioER o a b)
  | sh_QyER a b c d e f g h i j x y z : shipped _ (QyER o a b c d e f g h i j x y z)
  | sh_LyER a b : shipped _ (LyER a b)
  | sh_MeanNphNeER a b c : shipped _ (MeanNphNeER a b c)
  | sh_MeanExcitonIonER a b c : shipped _ (MeanExcitonIonER a b c)
  | sh_FanoFactorER a b c d e : shipped _ (FanoFactorER a b c d e)
  | sh_TrueExcitonIonER a b c d : shipped _ (TrueExcitonIonER o mode size a b c d)
  | sh_OmegaER a b c d e f g h : shipped _ (OmegaER o a b c d e f g h)
  | sh_TruePhotonElectronER a b c d : shipped _ (TruePhotonElectronER o a b c d).

  (** Plugins run one after the other, each on the key returned by the one before, with inputs that
      may depend on everything computed so far: the simulate functions of a component. *)
  Inductive chain (A : Type) : M A -> Prop :=
  | ch_end a : chain A (ret a)
  | ch_step B (m : M B) (f : B -> M A) : shipped B m -> (forall b, chain A (f b)) -> chain A (bind m f).
End Shipped.

(** A finite distribution of two numbers: weights and pairs. *)
Definition dist := list (R * (R * R)).
Definition mean (d : dist) (g : R -> R -> R) : R := fold_right (fun x s => fst x * g (fst (snd x)) (snd (snd x)) + s) 0 d.
(** As far as first and second moments go, two independent standard normal numbers. *)
Record normal_moments (d : dist) : Prop := {
  nm_total : mean d (fun _ _ => 1) = 1;
  nm_abs : mean d (fun z _ => Rabs z) = sqrt (2 / PI);
  nm_sq : mean d (fun z _ => z * z) = 1;
  nm_second : mean d (fun _ z => z) = 0;
  nm_second_sq : mean d (fun _ z => z * z) = 1;
  nm_mixed : mean d (fun z z' => Rabs z * z') = 0 }.
Definition variance (d : dist) (g : R -> R -> R) : R := mean d (fun z z' => (g z z' - mean d g) * (g z z' - mean d g)).

(** What is needed of the error function. *)
Definition like_erf (erf : R -> R) : Prop :=
  (forall x, -1 < erf x <= 1) /\ (forall x y, x <= y -> erf x <= erf y) /\ erf 0 = 0 /\ 4 / 5 <= erf 1.
