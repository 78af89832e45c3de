(** Vocabulary for what back fitting must deliver, independent of how the code goes about it. *)
From Coq Require Import List Bool String Arith.
From Verif Require Import Base XR BackModel SelProps.
Import ListNotations.

Section Spec.
Variables (Obj Sample : Type).
Variable cls : Obj -> string.
Variable default : string -> Obj.
Variable fit : Obj -> Sample -> res (Obj * xr).

(** [o] is the fit to [s] of one of the offered distributions, and no offered distribution fits [s] with a smaller loss. *)
Definition best_fit (offered : list Obj) (s : Sample) (o : Obj) : Prop :=
  exists c l, In c offered /\ fit c s = Ok (o, l) /\
    forall c', In c' offered -> exists o' l', fit c' s = Ok (o', l') /\ np_le l l'.

(** The distributions the user asked to consider for a variable whose prior is [prior]. [h] is the heap before the call. *)
Definition offered (h : heap Obj) (nf : families) (var : string) (prior : Obj) : list Obj :=
  prior :: match nf with
           | NoFamilies | Other => []
           | Auto => filter (fun o => negb (String.eqb (cls prior) (cls o))) [default "Normal"; default "HalfNormal"; default "Gamma"]%string
           | FList l => map (cell h) l
           | FDict t => map (cell h) (dict_get t var)
           end.

(** The user's own objects among them, for all variables of the model together. *)
Definition users_objects (nf : families) (vars : list string) : list nat :=
  flat_map (fun v => match nf with FList l => l | FDict t => dict_get t v | _ => [] end) vars.
(** The user's objects exist, and no object is offered twice. *)
Definition separate (h : heap Obj) (nf : families) (vars : list string) : Prop :=
  NoDup (users_objects nf vars) /\ forall r, In r (users_objects nf vars) -> (r < next h)%nat.

(** The prior [o] of a variable with [size] elements, starting from [o0]: element i of each of its parameters is what the
    fit to column i gave for that parameter. Each fit starts from the previous one. *)
Definition elementwise {Param} (params : Obj -> list Param) (install : Obj -> list (list Param) -> res Obj)
    (fit_mle : Obj -> Sample -> res Obj) (o0 : Obj) (column : nat -> res Sample) (size : nat) (o : Obj) : Prop :=
  exists fits arrays,
    List.length fits = size /\
    (forall i, (i < size)%nat -> exists s, column i = Ok s /\ fit_mle (nth i (o0 :: fits) o0) s = Ok (nth i fits o0)) /\
    install (last fits o0) arrays = Ok o /\
    forall n, (forall f, In f fits -> List.length (params f) = n) ->
      List.length arrays = n /\
    forall k, (k < n)%nat -> exists a, nth_error arrays k = Some a /\ List.length a = size /\
    forall i, (i < size)%nat -> nth_error a i = nth_error (params (nth i fits o0)) k.
End Spec.
