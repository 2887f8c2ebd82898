(** Model of SigmaMap.apply in appletree/config.py, from the built object and the parameters. The three maps were read when
    the SigmaMap was built: [read] gives the content of a file at that time. No proofs. *)
From Coq Require Import Reals.
From Verif Require Import Base ModelShare ModelConfig ModelInterp ModelMaps.

(** config.py:542-554. The scaler is looked up first (line 547), in the configuration [c] of the time of the call; a
    missing parameter is a KeyError of the dictionary. *)
Definition sigma_map_apply (m : method) (read : string -> map_file) (b : built) (c : rdict) (p : dict R) (pos : list R) : result R :=
  match snd (sigma_scaler (b_config b) c p) with
  | Err e => Err e
  | Ok sigma =>
      match b_values b with
      | [VStr med; VStr low; VStr up] =>
          match apply_file m (read med) pos with
          | Err e => Err e
          | Ok a =>
              match apply_file m (read low) pos with
              | Err e => Err e
              | Ok l => match apply_file m (read up) pos with Err e => Err e | Ok u => Ok (sigma_apply sigma a l u) end
              end
          end
      | _ => Err AttributeError
      end
  end.
