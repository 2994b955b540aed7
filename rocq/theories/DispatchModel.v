(** Model of the choice of a model class in kmcpy/models/base.py and kmcpy/io/registry.py, and of
    the fitter registry in kmcpy/models/fitting/registry.py. *)
From Verif Require Import Py Json StateModel ParamModel.
From Verif Require LocalBarrierModel.
Local Open Scope string_scope.

(** io/registry.py:4-10, each path split at its last dot. *)
Definition model_classes : dict string (string * string) :=
  [("composite_lce", ("kmcpy.models.composite_lce_model", "CompositeLCEModel"));
   ("lce", ("kmcpy.models.local_cluster_expansion", "LocalClusterExpansion"));
   ("local_cluster_expansion", ("kmcpy.models.local_cluster_expansion", "LocalClusterExpansion"));
   ("local_barrier", ("kmcpy.models.local_barrier_model", "LocalBarrierModel"));
   ("site_energy", ("kmcpy.models.site_energy", "SiteEnergyModel"))].

(** What importing a module and taking a name from it does: the class, an ImportError or
    AttributeError, or another exception. *)
Inductive found (C : Type) := Found (c : C) | Missing | Fails (e : exn).
Arguments Found {C}. Arguments Missing {C}. Arguments Fails {C}.

Section Dispatch.
  Context {C O : Type}.
  Variable find : string -> string -> found C.
  (** [from_file] of a class, if it has one that can be called, and its [from_config] with the
      model file of the configuration. *)
  Variable from_file : C -> option (path -> files -> result O).
  Variable from_config : C -> path -> files -> result O.

  (** base.py:174-186. *)
  Definition by_type (model_type : string) (model_file : path) (fs : files) : result O :=
    match dget model_classes model_type with
    | None => Err ValueError
    | Some (module, class) =>
        match find module class with
        | Found c => from_config c model_file fs
        | Missing => Err ValueError
        | Fails e => Err e
        end
    end.
  (** base.py:139-171.  A module that is not text cannot be imported (AttributeError); a class that
      is not text is a TypeError or, after a failed import, a ValueError: here always a TypeError. *)
  Definition load (c : C) (model_file : path) (fs : files) : result O :=
    match from_file c with Some f => f model_file fs | None => Err ValueError end.
  Definition registered_class (class : string) (model_file : path) (fs : files) : result O :=
    (* an ImportError here has no handler; it is written AttributeError *)
    match List.find (fun kv => String.eqb (snd (snd kv)) class) model_classes with
    | None => Err ValueError
    | Some (_, (module, class)) =>
        match find module class with
        | Found c => load c model_file fs
        | Missing => Err AttributeError
        | Fails e => Err e
        end
    end.
  Definition by_class (module class : json) (model_file : path) (fs : files) : result O :=
    match module, class with
    | JStr m, JStr c =>
        match find m c with
        | Found k => load k model_file fs
        | Missing => registered_class c model_file fs
        | Fails e => Err e
        end
    | _, JStr c => registered_class c model_file fs
    | _, _ => Err TypeError
    end.
  (** [config.model_type or "composite_lce"]. *)
  Definition type_or_default (model_type : option string) : string :=
    match model_type with Some s => if String.eqb s "" then "composite_lce" else s | None => "composite_lce" end.
  (** base.py:112-186, called on [BaseModel]. *)
  Definition model_from_config (model_file : path) (model_type : option string) (fs : files) : result O :=
    match model_file with
    | [] => by_type (type_or_default model_type) model_file fs
    | _ =>
        let* payload := loadfn model_file fs in
        match payload with
        | JObj d =>
            match dget d "filetype", dget d "@module", dget d "@class" with
            | Some (JStr "kmcpy.model_file"), _, _ =>
                match dget d "model_type" with
                | Some (JStr t) => if String.eqb (LocalBarrierModel.py_strip t) "" then Err ValueError else by_type t model_file fs
                | _ => Err ValueError
                end
            | Some (JList _), _, _ | Some (JObj _), _, _ => Err TypeError
            | Some _, _, _ => Err ValueError
            | None, Some module, Some class => by_class module class model_file fs
            | None, _, _ => by_type (type_or_default model_type) model_file fs
            end
        | _ => by_type (type_or_default model_type) model_file fs
        end
    end.
End Dispatch.

(** ** Fitters of model classes (fitting/registry.py) *)
Section Fitters.
  Context {C F : Type} `{EqDecision C} `{EqDecision F}.
  (** registry.py:10-19. *)
  Definition register (reg : dict C F) (c : C) (f : F) : dict C F * result unit :=
    match dget reg c with
    | Some g => if decide (g = f) then (dset reg c f, Ok tt) else (reg, Err ValueError)
    | None => (dset reg c f, Ok tt)
    end.
  (** registry.py:22-28: [mro] are the class and its bases, nearest first. *)
  Fixpoint fitter_for (reg : dict C F) (mro : list C) : option F :=
    match mro with
    | [] => None
    | c :: mro' => match dget reg c with Some f => Some f | None => fitter_for reg mro' end
    end.
  (** base.py:68-79. *)
  Definition get_fitter_class (reg : dict C F) (mro : list C) (own : option F) : result F :=
    match fitter_for reg mro with
    | Some f => Ok f
    | None => match own with Some f => Ok f | None => Err NotImplementedError end
    end.
  (** Any number of registrations, each of which may raise and be ignored. *)
  Definition registrations (reg : dict C F) (l : list (C * F)) : dict C F :=
    fold_left (fun reg cf => fst (register reg (fst cf) (snd cf))) l reg.
End Fitters.
