(** Which objects count as which kind of component (sympl/_core/base_components.py,
    ComponentMeta), and how wrappers call what they wrap. *)
From Coq Require Import String List Bool Arith ZArith.
From Verif Require Import Prelude.
Import ListNotations.
Open Scope string_scope.
Open Scope nat_scope.
Open Scope list_scope.

(** The component base classes. *)
Inductive kind : Type := KStepper | KTendency | KImplicit | KDiagnostic.

Definition kind_eqb (a b : kind) : bool :=
  match a, b with
  | KStepper, KStepper | KTendency, KTendency | KImplicit, KImplicit | KDiagnostic, KDiagnostic => true
  | _, _ => false
  end.

(** The default of an argument: there is none, it is None, or it is something else. *)
Inductive arg_default : Type := Required | DefaultNone | DefaultOther.

(** An object: the component base classes its class inherits from, the other attributes it
    has (those hasattr finds), and the arguments of its __call__ if it has one. *)
Record obj : Type := mkobj {
  o_bases : list kind;
  o_attrs : list string;
  o_call : option (list (string * arg_default))
}.

Definition hasattr (o : obj) (att : string) : bool :=
  if String.eqb att "__call__" then match o_call o with Some _ => true | None => false end else mem att (o_attrs o).

(** base_components.py 75-84 *)
Definition check_attributes : list string :=
  ["input_properties"; "tendency_properties"; "diagnostic_properties"; "output_properties"; "__call__"; "array_call"; "tendencies_in_diagnostics"; "name"].

(** hasattr(cls, att) for the attributes in check_attributes; base_components.py 408-668
    (Stepper), 671-893, 896-1120, 1123-1245 *)
Definition class_has (k : kind) (att : string) : bool :=
  match k with
  | KStepper => mem att ["input_properties"; "diagnostic_properties"; "output_properties"; "__call__"; "array_call"; "tendencies_in_diagnostics"]
  | KTendency | KImplicit => mem att ["input_properties"; "tendency_properties"; "diagnostic_properties"; "__call__"; "array_call"; "tendencies_in_diagnostics"; "name"]
  | KDiagnostic => mem att ["input_properties"; "diagnostic_properties"; "__call__"; "array_call"]
  end.

(** 'timestep' in getargspec(cls.__call__).args; base_components.py 581, 808, 1031, 1191 *)
Definition class_timestep (k : kind) : bool :=
  match k with KStepper | KImplicit => true | KTendency | KDiagnostic => false end.

(** base_components.py 74-93: __get_attribute_requirements *)
Definition required (k : kind) : list string := filter (class_has k) check_attributes.
Definition disallowed (k : kind) : list string :=
  filter (fun att => negb (String.eqb att "name")) (filter (fun att => negb (mem att (required k))) check_attributes).

(** base_components.py 37-44 and 60-68: the value of 'timestep' in the defaults *)
Definition timestep_in (args : list (string * arg_default)) : bool := mem "timestep" (map fst args).
Definition timestep_optional (args : list (string * arg_default)) : bool :=
  existsb (fun a => String.eqb (fst a) "timestep" && match snd a with DefaultNone => true | _ => false end) args.

(** base_components.py 49-72: isinstance(o, k).  Not modelled: classes registered with
    abc, and attributes whose lookup raises something other than AttributeError. *)
Definition is_instance (k : kind) (o : obj) : bool :=
  match o_bases o with
  | _ :: _ => existsb (kind_eqb k) (o_bases o)
  | [] =>
      let has_attributes := forallb (hasattr o) (required k) && negb (existsb (hasattr o) (disallowed k)) in
      match o_call o with
      | None => false
      | Some args => has_attributes && (Bool.eqb (class_timestep k) (timestep_in args) || timestep_optional args)
      end
  end.

(** ** Wrappers (wrappers.py) *)

Inductive wrapper : Type := Scaling | Frequency.

(** wrappers.py 6-121, 192-256: a wrapper around an object.  It inherits from no component
    class, gets the attributes of what it wraps, and has __call__(self, state, timestep=None). *)
Definition wrap (o : obj) : obj :=
  mkobj [] (o_attrs o) (Some [("self", Required); ("state", Required); ("timestep", DefaultNone)]).

(** Several wrappers, the outermost first. *)
Definition wrap_all (ws : list wrapper) (o : obj) : obj := fold_right (fun _ => wrap) o ws.

(** wrappers.py 61-67: what ScalingWrapper accepts *)
Definition scaling_accepts (o : obj) : bool := existsb (fun k => is_instance k o) [KDiagnostic; KTendency; KImplicit; KStepper].

Section Calls.
  Context {O : Type}.

  (** Calling a component of a kind with or without a timestep: TypeError if its __call__
      does not take one, or needs one. *)
  Definition component_call (k : kind) (body : option Z -> res O) (ts : option Z) : res O :=
    match class_timestep k, ts with
    | true, None | false, Some _ => Err EType
    | _, _ => body ts
    end.

  (** wrappers.py 150-190: how ScalingWrapper calls [o].  The scaling is left out. *)
  Definition scaling_call (o : obj) (call : option Z -> res O) (ts : option Z) : res O :=
    if is_instance KStepper o then match ts with None => Err EType | Some _ => call ts end
    else if is_instance KTendency o then call None
    else if is_instance KImplicit o then match ts with None => Err EType | Some _ => call ts end
    else if is_instance KDiagnostic o then call None
    else Err ERuntime.

  (** wrappers.py 242-250: how UpdateFrequencyWrapper calls what it wraps when an update is due *)
  Definition frequency_call (call : option Z -> res O) (ts : option Z) : res O :=
    match ts with
    | Some _ => match call ts with Err EType => call None | r => r end
    | None => call None
    end.

  (** Calling a component through its wrappers. *)
  Fixpoint call_through (ws : list wrapper) (o : obj) (k : kind) (body : option Z -> res O) (ts : option Z) : res O :=
    match ws with
    | [] => component_call k body ts
    | Scaling :: r => scaling_call (wrap_all r o) (call_through r o k body) ts
    | Frequency :: r => frequency_call (call_through r o k body) ts
    end.
End Calls.
