(** Model of Context.from_backend with the places where the file is looked for (appletree/context.py:59-72,
    utils.py:147-204). No proofs in this file.
    Simplifications: a file is the group "mcmc" that a fit has made in it, or it is no file that h5py opens; the context is
    made of the contents of the file by an arbitrary function, of whose effects only the context is kept. *)
From Verif Require Import Base ModelFloat ModelShare ModelParameter ModelFit.

Section Reopen.
  Variable Rng : Type.
  (** The files, and the constructor on the instruct of a file (context.py:66). *)
  Variable files : string -> option (backend Rng).
  Variable cls : backend Rng -> result (fctx Rng).

  (** context.py:69: the file of a context is the one of the given name, in the working directory if the name is relative. *)
  Definition with_backend (name : string) (x : fctx Rng) : fctx Rng :=
    mk_fctx Rng (x_pars Rng x) (x_needed Rng x) true (files name) (x_sampler Rng x) (x_cache Rng x) (x_global Rng x) (x_calls Rng x).

  (** context.py:70 with read_only=True, the default (line 218): a sampler on a backend that is not there initialises it, which
      emcee refuses with a RuntimeError for one that is read only. *)
  Definition open_read_only (nwalkers : nat) (x : fctx Rng) : result (fctx Rng) :=
    match x_file Rng x with
    | None => Err RuntimeError
    | Some _ =>
        match pre_fitting Rng nwalkers false x with
        | (x', Ok _) => Ok x'
        | (_, Err e) => Err e
        end
    end.

  (** context.py:59-72. h5py raises an OSError for what is no h5 file, here FileNotFoundError. *)
  Definition from_backend (f : fs) (name : string) (c : rdict) : rdict * result (fctx Rng) :=
    let '(c1, r) := get_file_path f name c in
    (c1, match r with
         | Err e => Err e
         | Ok path =>
             match files path with
             | None => Err FileNotFoundError
             | Some b =>
                 match m_batch (b_meta Rng b) with
                 | None => Err KeyError
                 | Some _ =>
                     match cls b with
                     | Err e => Err e
                     | Ok tree => open_read_only (fst (b_shape Rng b)) (with_backend name tree)
                     end
                 end
             end
         end).
End Reopen.
