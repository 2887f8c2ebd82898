(** The parameter files that appletree ships (appletree/parameters/*.json) as data for the model of
    Parameter (ModelParameter.v). A null entry is the same as a missing one here (neither is read for
    a fixed parameter); "unit" and "doc" are left out. No proofs in this file. *)
From Coq Require Import Reals.
From Verif Require Import Base ModelFloat ModelShare ModelConfig ModelComponent ModelParameter ModelLikelihood ModelWhole ModelInstruct.
Local Open Scope string_scope.
Local Open Scope list_scope.

Section Files.
Local Open Scope R_scope.

(** parameters/er.json:1-303 *)
Definition par_er : dict setting :=
  [("w", mk_setting (Some "norm") (Some [("mean", Fin (137 / 10000)); ("std", Fin (1 / 5000))]) (Some (Fin 0, Fin 1)) (Some (Fin (137 / 10000))) (Some (Fin (1 / 5000))));
   ("fano", mk_setting (Some "fixed") (Some [("val", Fin (59 / 1000))]) None None None);
   ("gas_gain", mk_setting (Some "fixed") (Some [("val", Fin (313 / 10))]) None None None);
   ("drift_velocity", mk_setting (Some "fixed") (Some [("val", Fin (677 / 10000))]) None None None);
   ("s2_threshold", mk_setting (Some "fixed") (Some [("val", Fin 500)]) None None None);
   ("field", mk_setting (Some "fixed") (Some [("val", Fin 23)]) None None None);
   ("nex_ni_ratio", mk_setting (Some "uniform") (Some [("lower", Fin (3 / 50)); ("upper", Fin (1 / 5))]) (Some (Fin (3 / 50), Fin (1 / 5))) (Some (Fin (11 / 100))) (Some (Fin (1 / 50))));
   ("g1", mk_setting (Some "norm") (Some [("mean", Fin (303 / 2000)); ("std", Fin (7 / 5000))]) (Some (Fin 0, Fin 1)) (Some (Fin (303 / 2000))) (Some (Fin (7 / 5000))));
   ("g2", mk_setting (Some "norm") (Some [("mean", Fin (329 / 20)); ("std", Fin (16 / 25))]) (Some (Fin 0, Fin 100)) (Some (Fin (329 / 20))) (Some (Fin (16 / 25))));
   ("p_dpe", mk_setting (Some "norm") (Some [("mean", Fin (227 / 1000)); ("std", Fin (3 / 125))]) (Some (Fin 0, Fin 1)) (Some (Fin (227 / 1000))) (Some (Fin (3 / 125))));
   ("elife_sigma", mk_setting (Some "norm") (Some [("mean", Fin 0); ("std", Fin (1 / 50))]) (Some (Fin (-1), Fin 1)) (Some (Fin 0)) (Some (Fin (1 / 50))));
   ("s1_eff_3f_sigma", mk_setting (Some "norm") (Some [("mean", Fin 0); ("std", Fin 1)]) (Some (Fin (-5), Fin 5)) (Some (Fin 0)) (Some (Fin 1)));
   ("s1_cut_acc_sigma", mk_setting (Some "norm") (Some [("mean", Fin 0); ("std", Fin 1)]) (Some (Fin (-5), Fin 5)) (Some (Fin 0)) (Some (Fin 1)));
   ("s2_cut_acc_sigma", mk_setting (Some "norm") (Some [("mean", Fin 0); ("std", Fin 1)]) (Some (Fin (-5), Fin 5)) (Some (Fin 0)) (Some (Fin 1)));
   ("py0", mk_setting (Some "free") (Some []) (Some (Fin (-10000000000), Fin 10000000000)) (Some (Fin (63 / 500))) (Some (Fin (1 / 50))));
   ("py1", mk_setting (Some "free") (Some []) (Some (Fin (-10000000000), Fin 10000000000)) (Some (Fin (431 / 10))) (Some (Fin 1)));
   ("py2", mk_setting (Some "free") (Some []) (Some (Fin (-10000000000), Fin 10000000000)) (Some (Fin (- (3 / 10)))) (Some (Fin (1 / 20))));
   ("py3", mk_setting (Some "free") (Some []) (Some (Fin (-10000000000), Fin 10000000000)) (Some (Fin (47 / 50))) (Some (Fin (1 / 4))));
   ("py4", mk_setting (Some "free") (Some []) (Some (Fin (-10000000000), Fin 10000000000)) (Some (Fin (59 / 100))) (Some (Fin (1 / 4))));
   ("rf0", mk_setting (Some "free") (Some []) (Some (Fin (-10000000000), Fin 10000000000)) (Some (Fin (29 / 1000))) (Some (Fin (1 / 200))));
   ("rf1", mk_setting (Some "free") (Some []) (Some (Fin (-10000000000), Fin 10000000000)) (Some (Fin (13 / 50))) (Some (Fin (1 / 10))));
   ("ac_rate", mk_setting (Some "norm") (Some [("mean", Fin 10); ("std", Fin 2)]) (Some (Fin 0, Fin 10000000000)) (Some (Fin (56 / 5))) (Some (Fin (56 / 25))));
   ("er_rate", mk_setting (Some "free") (Some []) (Some (Fin 0, Fin 10000000000)) (Some (Fin 2000)) (Some (Fin 100)))].

(** parameters/er_rn220_ar37.json:1-333 *)
Definition par_er_rn220_ar37 : dict setting :=
  [("w", mk_setting (Some "norm") (Some [("mean", Fin (137 / 10000)); ("std", Fin (1 / 5000))]) (Some (Fin 0, Fin 1)) (Some (Fin (137 / 10000))) (Some (Fin (1 / 5000))));
   ("fano", mk_setting (Some "fixed") (Some [("val", Fin (59 / 1000))]) None None None);
   ("gas_gain", mk_setting (Some "fixed") (Some [("val", Fin (313 / 10))]) None None None);
   ("drift_velocity", mk_setting (Some "fixed") (Some [("val", Fin (677 / 10000))]) None None None);
   ("s2_threshold", mk_setting (Some "fixed") (Some [("val", Fin 500)]) None None None);
   ("field", mk_setting (Some "fixed") (Some [("val", Fin 23)]) None None None);
   ("nex_ni_ratio", mk_setting (Some "uniform") (Some [("lower", Fin (3 / 50)); ("upper", Fin (1 / 5))]) (Some (Fin (3 / 50), Fin (1 / 5))) (Some (Fin (11 / 100))) (Some (Fin (1 / 50))));
   ("g1", mk_setting (Some "norm") (Some [("mean", Fin (303 / 2000)); ("std", Fin (7 / 5000))]) (Some (Fin 0, Fin 1)) (Some (Fin (303 / 2000))) (Some (Fin (7 / 5000))));
   ("g2", mk_setting (Some "norm") (Some [("mean", Fin (329 / 20)); ("std", Fin (16 / 25))]) (Some (Fin 0, Fin 100)) (Some (Fin (329 / 20))) (Some (Fin (16 / 25))));
   ("p_dpe", mk_setting (Some "norm") (Some [("mean", Fin (227 / 1000)); ("std", Fin (3 / 125))]) (Some (Fin 0, Fin 1)) (Some (Fin (227 / 1000))) (Some (Fin (3 / 125))));
   ("elife_sigma", mk_setting (Some "norm") (Some [("mean", Fin 0); ("std", Fin (1 / 50))]) (Some (Fin (-1), Fin 1)) (Some (Fin 0)) (Some (Fin (1 / 50))));
   ("s1_eff_3f_sigma", mk_setting (Some "norm") (Some [("mean", Fin 0); ("std", Fin 1)]) (Some (Fin (-5), Fin 5)) (Some (Fin 0)) (Some (Fin 1)));
   ("s1_cut_acc_sigma_rn220", mk_setting (Some "norm") (Some [("mean", Fin 0); ("std", Fin 1)]) (Some (Fin (-5), Fin 5)) (Some (Fin 0)) (Some (Fin 1)));
   ("s1_cut_acc_sigma_ar37", mk_setting (Some "norm") (Some [("mean", Fin 0); ("std", Fin 1)]) (Some (Fin (-5), Fin 5)) (Some (Fin 0)) (Some (Fin 1)));
   ("s2_cut_acc_sigma_rn220", mk_setting (Some "norm") (Some [("mean", Fin 0); ("std", Fin 1)]) (Some (Fin (-5), Fin 5)) (Some (Fin 0)) (Some (Fin 1)));
   ("s2_cut_acc_sigma_ar37", mk_setting (Some "norm") (Some [("mean", Fin 0); ("std", Fin 1)]) (Some (Fin (-5), Fin 5)) (Some (Fin 0)) (Some (Fin 1)));
   ("py0", mk_setting (Some "free") (Some []) (Some (Fin (-10000000000), Fin 10000000000)) (Some (Fin (63 / 500))) (Some (Fin (1 / 50))));
   ("py1", mk_setting (Some "free") (Some []) (Some (Fin (-10000000000), Fin 10000000000)) (Some (Fin (431 / 10))) (Some (Fin 1)));
   ("py2", mk_setting (Some "free") (Some []) (Some (Fin (-10000000000), Fin 10000000000)) (Some (Fin (- (3 / 10)))) (Some (Fin (1 / 20))));
   ("py3", mk_setting (Some "free") (Some []) (Some (Fin (-10000000000), Fin 10000000000)) (Some (Fin (47 / 50))) (Some (Fin (1 / 4))));
   ("py4", mk_setting (Some "free") (Some []) (Some (Fin (-10000000000), Fin 10000000000)) (Some (Fin (59 / 100))) (Some (Fin (1 / 4))));
   ("rf0", mk_setting (Some "free") (Some []) (Some (Fin (-10000000000), Fin 10000000000)) (Some (Fin (29 / 1000))) (Some (Fin (1 / 200))));
   ("rf1", mk_setting (Some "free") (Some []) (Some (Fin (-10000000000), Fin 10000000000)) (Some (Fin (13 / 50))) (Some (Fin (1 / 10))));
   ("ac_rate", mk_setting (Some "norm") (Some [("mean", Fin 10); ("std", Fin 2)]) (Some (Fin 0, Fin 10000000000)) (Some (Fin (56 / 5))) (Some (Fin (56 / 25))));
   ("er_rate", mk_setting (Some "free") (Some []) (Some (Fin 0, Fin 10000000000)) (Some (Fin 2000)) (Some (Fin 100)))].

(** parameters/nr_low.json:1-176 *)
Definition par_nr_low : dict setting :=
  [("gas_gain", mk_setting (Some "fixed") (Some [("val", Fin (313 / 10))]) None None None);
   ("drift_velocity", mk_setting (Some "fixed") (Some [("val", Fin (677 / 10000))]) None None None);
   ("s2_threshold", mk_setting (Some "fixed") (Some [("val", Fin 500)]) None None None);
   ("g1", mk_setting (Some "norm") (Some [("mean", Fin (303 / 2000)); ("std", Fin (7 / 5000))]) (Some (Fin 0, Fin 1)) (Some (Fin (303 / 2000))) (Some (Fin (7 / 5000))));
   ("g2", mk_setting (Some "norm") (Some [("mean", Fin (329 / 20)); ("std", Fin (16 / 25))]) (Some (Fin 0, Fin 100)) (Some (Fin (329 / 20))) (Some (Fin (16 / 25))));
   ("p_dpe", mk_setting (Some "norm") (Some [("mean", Fin (227 / 1000)); ("std", Fin (3 / 125))]) (Some (Fin 0, Fin 1)) (Some (Fin (227 / 1000))) (Some (Fin (3 / 125))));
   ("elife_sigma", mk_setting (Some "norm") (Some [("mean", Fin 0); ("std", Fin (1 / 50))]) (Some (Fin (-1), Fin 1)) (Some (Fin 0)) (Some (Fin (1 / 50))));
   ("s1_eff_3f_sigma", mk_setting (Some "norm") (Some [("mean", Fin 0); ("std", Fin 1)]) (Some (Fin (-5), Fin 5)) (Some (Fin 0)) (Some (Fin 1)));
   ("s1_cut_acc_sigma", mk_setting (Some "norm") (Some [("mean", Fin 0); ("std", Fin 1)]) (Some (Fin (-5), Fin 5)) (Some (Fin 0)) (Some (Fin 1)));
   ("s2_cut_acc_sigma", mk_setting (Some "norm") (Some [("mean", Fin 0); ("std", Fin 1)]) (Some (Fin (-5), Fin 5)) (Some (Fin 0)) (Some (Fin 1)));
   ("t_ly", mk_setting (Some "free") (Some []) (Some (Fin (-2), Fin 2)) (Some (Fin 0)) (Some (Fin (1 / 5))));
   ("t_qy", mk_setting (Some "free") (Some []) (Some (Fin (-2), Fin 2)) (Some (Fin 0)) (Some (Fin (1 / 5))));
   ("nr_rate", mk_setting (Some "free") (Some []) (Some (Fin 0, Fin 10000000000)) (Some (Fin 2000)) (Some (Fin 100)))].

(** parameters/nestv2.json:1-227 *)
Definition par_nestv2 : dict setting :=
  [("liquid_xe_density", mk_setting (Some "fixed") (Some [("val", Fin (28619 / 10000))]) None None None);
   ("alpha", mk_setting (Some "twohalfnorm") (Some [("mu", Fin 11); ("sigma_pos", Fin 2); ("sigma_neg", Fin (1 / 2))]) (Some (Fin (1 / 10000000000), Fin 10000000000)) (Some (Fin 11)) (Some (Fin (1 / 2))));
   ("beta", mk_setting (Some "norm") (Some [("mean", Fin (11 / 10)); ("std", Fin (1 / 20))]) (Some (Fin (-10000000000), Fin 10000000000)) (Some (Fin (11 / 10))) (Some (Fin (1 / 20))));
   ("gamma", mk_setting (Some "norm") (Some [("mean", Fin (6 / 125)); ("std", Fin (21 / 10000))]) (Some (Fin (1 / 10000000000), Fin 10000000000)) (Some (Fin (6 / 125))) (Some (Fin (21 / 10000))));
   ("delta", mk_setting (Some "norm") (Some [("mean", Fin (- (533 / 10000))); ("std", Fin (17 / 2500))]) (Some (Fin (-10000000000), Fin 10000000000)) (Some (Fin (- (533 / 10000)))) (Some (Fin (17 / 2500))));
   ("epsilon", mk_setting (Some "twohalfnorm") (Some [("mu", Fin (63 / 5)); ("sigma_pos", Fin (17 / 5)); ("sigma_neg", Fin (29 / 10))]) (Some (Fin (1 / 10000000000), Fin 10000000000)) (Some (Fin (63 / 5))) (Some (Fin (29 / 10))));
   ("zeta", mk_setting (Some "norm") (Some [("mean", Fin (3 / 10)); ("std", Fin (1 / 10))]) (Some (Fin (1 / 10000000000), Fin 10000000000)) (Some (Fin (3 / 10))) (Some (Fin (1 / 10))));
   ("eta", mk_setting (Some "norm") (Some [("mean", Fin 2); ("std", Fin 1)]) (Some (Fin (-10000000000), Fin 10000000000)) (Some (Fin 2)) (Some (Fin 1)));
   ("theta", mk_setting (Some "norm") (Some [("mean", Fin (3 / 10)); ("std", Fin (1 / 20))]) (Some (Fin (-10000000000), Fin 10000000000)) (Some (Fin (3 / 10))) (Some (Fin (1 / 20))));
   ("iota", mk_setting (Some "norm") (Some [("mean", Fin 2); ("std", Fin (1 / 2))]) (Some (Fin (-10000000000), Fin 10000000000)) (Some (Fin 2)) (Some (Fin (1 / 2))));
   ("fano_ni", mk_setting (Some "fixed") (Some [("val", Fin (2 / 5))]) None None None);
   ("fano_nex", mk_setting (Some "fixed") (Some [("val", Fin (2 / 5))]) None None None);
   ("A", mk_setting (Some "fixed") (Some [("val", Fin (1 / 25))]) None None None);
   ("xi", mk_setting (Some "fixed") (Some [("val", Fin (1 / 2))]) None None None);
   ("omega", mk_setting (Some "fixed") (Some [("val", Fin (19 / 100))]) None None None);
   ("alpha2", mk_setting (Some "fixed") (Some [("val", Fin (9 / 4))]) None None None);
   ("rate", mk_setting (Some "fixed") (Some [("val", Fin 1)]) None None None)].

(** parameters/nestv2_yield_only.json:1-205 *)
Definition par_nestv2_yield_only : dict setting :=
  [("liquid_xe_density", mk_setting (Some "fixed") (Some [("val", Fin (28619 / 10000))]) None None None);
   ("alpha", mk_setting (Some "twohalfnorm") (Some [("mu", Fin 11); ("sigma_pos", Fin 2); ("sigma_neg", Fin (1 / 2))]) (Some (Fin (1 / 10000000000), Fin 10000000000)) (Some (Fin 11)) (Some (Fin (1 / 2))));
   ("beta", mk_setting (Some "norm") (Some [("mean", Fin (11 / 10)); ("std", Fin (1 / 20))]) (Some (Fin (-10000000000), Fin 10000000000)) (Some (Fin (11 / 10))) (Some (Fin (1 / 20))));
   ("gamma", mk_setting (Some "norm") (Some [("mean", Fin (6 / 125)); ("std", Fin (21 / 10000))]) (Some (Fin (1 / 10000000000), Fin 10000000000)) (Some (Fin (6 / 125))) (Some (Fin (21 / 10000))));
   ("delta", mk_setting (Some "norm") (Some [("mean", Fin (- (533 / 10000))); ("std", Fin (17 / 2500))]) (Some (Fin (-10000000000), Fin 10000000000)) (Some (Fin (- (533 / 10000)))) (Some (Fin (17 / 2500))));
   ("epsilon", mk_setting (Some "twohalfnorm") (Some [("mu", Fin (63 / 5)); ("sigma_pos", Fin (17 / 5)); ("sigma_neg", Fin (29 / 10))]) (Some (Fin (1 / 10000000000), Fin 10000000000)) (Some (Fin (63 / 5))) (Some (Fin (29 / 10))));
   ("zeta", mk_setting (Some "norm") (Some [("mean", Fin (3 / 10)); ("std", Fin (1 / 10))]) (Some (Fin (1 / 10000000000), Fin 10000000000)) (Some (Fin (3 / 10))) (Some (Fin (1 / 10))));
   ("eta", mk_setting (Some "norm") (Some [("mean", Fin 2); ("std", Fin 1)]) (Some (Fin (-10000000000), Fin 10000000000)) (Some (Fin 2)) (Some (Fin 1)));
   ("theta", mk_setting (Some "norm") (Some [("mean", Fin (3 / 10)); ("std", Fin (1 / 20))]) (Some (Fin (-10000000000), Fin 10000000000)) (Some (Fin (3 / 10))) (Some (Fin (1 / 20))));
   ("iota", mk_setting (Some "norm") (Some [("mean", Fin 2); ("std", Fin (1 / 2))]) (Some (Fin (-10000000000), Fin 10000000000)) (Some (Fin 2)) (Some (Fin (1 / 2))));
   ("ly_lux_2016_field", mk_setting (Some "fixed") (Some [("val", Fin 180)]) None None None);
   ("qy_lenardo_2019_field", mk_setting (Some "fixed") (Some [("val", Fin 220)]) None None None);
   ("ly_lux_2022_field", mk_setting (Some "fixed") (Some [("val", Fin 400)]) None None None);
   ("qy_lux_2022_field", mk_setting (Some "fixed") (Some [("val", Fin 400)]) None None None);
   ("rate", mk_setting (Some "fixed") (Some [("val", Fin 1)]) None None None)].

(** parameters/er_nestv2.json:1-291 *)
Definition par_er_nestv2 : dict setting :=
  [("w", mk_setting (Some "norm") (Some [("mean", Fin (137 / 10000)); ("std", Fin (1 / 5000))]) (Some (Fin 0, Fin 1)) (Some (Fin (137 / 10000))) (Some (Fin (1 / 5000))));
   ("gas_gain", mk_setting (Some "fixed") (Some [("val", Fin (147 / 5))]) None None None);
   ("drift_velocity", mk_setting (Some "fixed") (Some [("val", Fin (677 / 10000))]) None None None);
   ("s2_threshold", mk_setting (Some "fixed") (Some [("val", Fin 500)]) None None None);
   ("field", mk_setting (Some "fixed") (Some [("val", Fin 23)]) None None None);
   ("liquid_xe_density", mk_setting (Some "fixed") (Some [("val", Fin (29 / 10))]) None None None);
   ("g1", mk_setting (Some "norm") (Some [("mean", Fin (303 / 2000)); ("std", Fin (7 / 5000))]) (Some (Fin 0, Fin 1)) (Some (Fin (303 / 2000))) (Some (Fin (7 / 5000))));
   ("g2", mk_setting (Some "norm") (Some [("mean", Fin (329 / 20)); ("std", Fin (16 / 25))]) (Some (Fin 0, Fin 100)) (Some (Fin (329 / 20))) (Some (Fin (16 / 25))));
   ("p_dpe", mk_setting (Some "norm") (Some [("mean", Fin (227 / 1000)); ("std", Fin (3 / 125))]) (Some (Fin 0, Fin 1)) (Some (Fin (227 / 1000))) (Some (Fin (3 / 125))));
   ("elife_sigma", mk_setting (Some "norm") (Some [("mean", Fin 0); ("std", Fin (1 / 50))]) (Some (Fin (- (1 / 2)), Fin (1 / 2))) (Some (Fin 0)) (Some (Fin (1 / 50))));
   ("s1_eff_n_hits_3f_sigma", mk_setting (Some "norm") (Some [("mean", Fin 0); ("std", Fin 1)]) (Some (Fin (-3), Fin 3)) (Some (Fin 0)) (Some (Fin 1)));
   ("s1_cut_acc_sigma", mk_setting (Some "norm") (Some [("mean", Fin 0); ("std", Fin 1)]) (Some (Fin (-3), Fin 3)) (Some (Fin 0)) (Some (Fin 1)));
   ("s2_cut_acc_sigma", mk_setting (Some "norm") (Some [("mean", Fin 0); ("std", Fin 1)]) (Some (Fin (-3), Fin 3)) (Some (Fin 0)) (Some (Fin 1)));
   ("hits_acceptance", mk_setting (Some "norm") (Some [("mean", Fin (187 / 200)); ("std", Fin (1 / 100))]) (Some (Fin (9 / 10), Fin 1)) (Some (Fin (187 / 200))) (Some (Fin (1 / 100))));
   ("m1", mk_setting (Some "free") (Some []) (Some (Fin (-20), Fin 20)) (Some (Fin (- (27 / 20)))) (Some (Fin 1)));
   ("m2", mk_setting (Some "free") (Some []) (Some (Fin 60, Fin 100)) (Some (Fin (7727 / 100))) (Some (Fin 5)));
   ("m3", mk_setting (Some "free") (Some []) (Some (Fin (9 / 20), Fin (11 / 20))) (Some (Fin (13 / 25))) (Some (Fin (1 / 100))));
   ("m4", mk_setting (Some "fixed") (Some [("val", Fin (282528809 / 100000000))]) None None None);
   ("m7", mk_setting (Some "free") (Some []) (Some (Fin 10, Fin 1000)) (Some (Fin (9913 / 100))) (Some (Fin (1 / 10))));
   ("m8", mk_setting (Some "free") (Some []) (Some (Fin 2, Fin 10)) (Some (Fin (3453 / 1000))) (Some (Fin (1 / 10))));
   ("m9", mk_setting (Some "free") (Some []) (Some (Fin (3 / 20), Fin (9 / 20))) (Some (Fin (1 / 4))) (Some (Fin (1 / 20))));
   ("m10", mk_setting (Some "free") (Some []) (Some (Fin 0, Fin 1)) (Some (Fin (117 / 1000))) (Some (Fin (1 / 10000))));
   ("delta_f", mk_setting (Some "fixed") (Some [("val", Fin 1)]) None None None);
   ("A_er", mk_setting (Some "free") (Some []) (Some (Fin 0, Fin (1 / 5))) (Some (Fin (7 / 200))) (Some (Fin (1 / 1000))));
   ("xi_er", mk_setting (Some "fixed") (Some [("val", Fin (23 / 50))]) None None None);
   ("omega_er", mk_setting (Some "fixed") (Some [("val", Fin (41 / 200))]) None None None);
   ("alpha3_er", mk_setting (Some "fixed") (Some [("val", Fin (- (1 / 5)))]) None None None);
   ("ac_rate", mk_setting (Some "free") (Some []) (Some (Fin 0, Fin 10000000000)) (Some (Fin 33)) (Some (Fin (33 / 5))));
   ("er_rate", mk_setting (Some "free") (Some []) (Some (Fin 0, Fin 10000000000)) (Some (Fin 42796)) (Some (Fin 200)))].

End Files.

(** All of them. *)
Definition shipped_parameters : dict (dict setting) :=
  [("er.json", par_er);
   ("er_rn220_ar37.json", par_er_rn220_ar37);
   ("nr_low.json", par_nr_low);
   ("nestv2.json", par_nestv2);
   ("nestv2_yield_only.json", par_nestv2_yield_only);
   ("er_nestv2.json", par_er_nestv2)].

(** The "par_config" of the shipped instructions (instructs/rn220.json:48, rn220_ar37.json:72,
    neutron_low.json:48, literature_lyqy.json:144). *)
Definition shipped_par_config : list (instruct * string) :=
  [(rn220, "er.json"); (rn220_ar37, "er_rn220_ar37.json"); (neutron_low, "nr_low.json"); (literature_lyqy, "nestv2_yield_only.json")].
