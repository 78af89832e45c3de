(** Model of what the elicitation functions do with a distribution that is not one of PreliZ: if_pymc_get_preliz
    (preliz/ppls/pymc_io.py 233-239) and the places that call it, preliz/unidimensional/mle.py, maxent.py, quartile.py and
    matching.py. What a converted distribution is, is in PymcModel.v; what the fits do, in ApiModel.v and SampleModel.v. Here
    both are parameters, and the objects live in the heap of BackModel.v. *)
From Coq Require Import List Bool String Arith.
From Verif Require Import Base XR BackModel.
Import ListNotations.

Section Conv.
Variables (Obj Sample PyVar Prior Args : Type).
Variable cls : Obj -> string.                           (* __class__.__name__ *)
Variable from_pymc : PyVar -> res Obj.                  (* pymc_io.py 242-328 *)
Variable from_prior : Prior -> res Obj.                 (* pymc_io.py 331-372 *)
Variable normal : Obj.                                  (* Normal() *)
Variable fit : Obj -> Sample -> res (Obj * xr).         (* one pass of fit_to_sample, see BackModel *)
Variable argsort : list xr -> list nat.                 (* np.argsort *)

(** What may be passed as a distribution: an object of PreliZ, a PyMC variable, or a Prior of pymc-extras. *)
Inductive given := Mine (r : nat) | Pm (v : PyVar) | Pr (p : Prior).

(** pymc_io.py 233-239: an object of PreliZ is itself; for the others a new object is made. *)
Definition get_preliz (h : heap Obj) (g : given) : heap Obj * res nat :=
  let new (o : res Obj) := match o with Ok x => let '(r, h') := alloc h x in (h', Ok r) | Err e => (h, Err e) end in
  match g with Mine r => (h, Ok r) | Pm v => new (from_pymc v) | Pr p => new (from_prior p) end.

(** distribution_helper.py 61-65. *)
Definition valid_distribution (h : heap Obj) (r : nat) : res unit :=
  if String.eqb (cls (cell h r)) "Categorical" then Err ValueError else Ok tt.

(** mle.py 70-74: one after the other, converted and checked. *)
Fixpoint prepare (h : heap Obj) (gs : list given) : heap Obj * res (list nat) :=
  match gs with
  | [] => (h, Ok [])
  | g :: rest =>
      match get_preliz h g with
      | (h1, Err e) => (h1, Err e)
      | (h1, Ok r) =>
          match valid_distribution h1 r with
          | Err e => (h1, Err e)
          | Ok _ => match prepare h1 rest with (h2, Ok l) => (h2, Ok (r :: l)) | (h2, Err e) => (h2, Err e) end
          end
      end
  end.
(** mle.py 70-84 and 99 with plot=False. *)
Definition mle_any (h : heap Obj) (gs : list given) (s : Sample) : heap Obj * res (list nat) :=
  match prepare h gs with
  | (h1, Err e) => (h1, Err e)
  | (h1, Ok rs) => match fit_loop Obj Sample fit h1 (map Inst rs) s with
                   | (h2, Ok l) => (h2, Ok (argsort l))
                   | (h2, Err e) => (h2, Err e)
                   end
  end.

(** maxent.py 96-175 and quartile.py 91-148 with plot=False. [solve] is what is done to the object once it is known to be
    acceptable: the object afterwards, and the exception if there is one. [assign] is _parametrization(fixed_params).
    None stands for a new Normal, but only after the fixed parameters have been assigned. The function returns a reference. *)
Variable solve : Args -> Obj -> Obj * option exn.
Variable assign : Obj -> Obj * option exn.
Definition run_on (h : heap Obj) (r : nat) (f : Obj -> Obj * option exn) : heap Obj * option exn :=
  let '(o, e) := f (cell h r) in (put h r o, e).
Definition elicit (h : heap Obj) (g : option given) (fixed : bool) (a : Args) : heap Obj * res nat :=
  match g with
  | None =>
      if fixed then (h, Err AttributeError) else
      let '(r, h1) := alloc h normal in
      let '(h2, e) := run_on h1 r (solve a) in (h2, match e with Some x => Err x | None => Ok r end)
  | Some g =>
      match get_preliz h g with
      | (h1, Err e) => (h1, Err e)
      | (h1, Ok r) =>
          match valid_distribution h1 r with
          | Err e => (h1, Err e)
          | Ok _ =>
              let '(h2, e) := if fixed then run_on h1 r assign else (h1, None) in
              match e with
              | Some x => (h2, Err x)
              | None => let '(h3, e) := run_on h2 r (solve a) in (h3, match e with Some x => Err x | None => Ok r end)
              end
          end
      end
  end.

(** matching.py 80-146 and 215-267 with plot=False, for a source that is a distribution. [solve2 source target]. *)
Variable solve2 : Obj -> Obj -> Obj * option exn.
Definition match_any (h : heap Obj) (source target : given) : heap Obj * res nat :=
  match get_preliz h source with
  | (h1, Err e) => (h1, Err e)
  | (h1, Ok a) =>
      match get_preliz h1 target with
      | (h2, Err e) => (h2, Err e)
      | (h2, Ok b) =>
          match valid_distribution h2 a, valid_distribution h2 b with
          | Err e, _ | _, Err e => (h2, Err e)
          | Ok _, Ok _ => let '(h3, e) := run_on h2 b (solve2 (cell h2 a)) in (h3, match e with Some x => Err x | None => Ok b end)
          end
      end
  end.
End Conv.
Arguments Mine {PyVar Prior}. Arguments Pm {PyVar Prior}. Arguments Pr {PyVar Prior}.
