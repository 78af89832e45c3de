(** Model of the sliders of the method plot_interactive: /repo/preliz/internal/plot_helper.py, lines 334-370, and
    /repo/preliz/distributions/distributions.py, lines 1055-1097. *)
From Coq Require Import Reals List String Bool ZArith.
From Verif Require Import Base XR FamModel BoundModel CatModel DrawModel.
Import ListNotations.
Local Open Scope R_scope.
Local Open Scope string_scope.
Local Open Scope list_scope.

(** A number as Python sees it: not a float (int, np.int64, ...), or a float. *)
Inductive number := Whole (z : Z) | Floating (x : xr).
Definition value_of (v : number) : xr := match v with Whole z => Fin (IZR z) | Floating x => x end.

Section Round.
(** The built-in [round] of a float to a number of decimal places. *)
Variable rnd : R -> Z -> R.

(** np.floor(np.log10(abs(value))) of a number that is not 0. *)
Definition power (v : R) : Z := Int_part (ln (Rabs v) / ln 10).

(** plot_helper.py 355-370. The floor of an infinity is that infinity and [int] of it fails; [int] of nan fails as well.
    [np.isfinite] of None fails. *)
Definition generate_range (value lower : xr) (upper : option xr) : res (R * R * R) :=
  match value with
  | Fin v =>
    if Reqb v 0 then Ok (-10, 10, 1 / 10)
    else
      let order_of_magnitude := powerRZ 10 (power v) in
      let decimal_places := (- power v)%Z in
      let std := order_of_magnitude * 10 - order_of_magnitude / 10 in
      let min_v := rnd (v - std) decimal_places in
      let max_v := rnd (v + std) decimal_places in
      let min_v := match lower with Fin l => l | _ => min_v end in
      match upper with
      | None => Err TypeError
      | Some u =>
        let max_v := match u with Fin u => u | _ => max_v end in
        Ok (min_v, max_v, order_of_magnitude / 10)
      end
  | PInf | NInf => Err OverflowError
  | NaN => Err ValueError
  end.

(** [int] of a float: towards zero. *)
Definition trunc (x : R) : Z := if Rleb 0 x then Int_part x else (- Int_part (- x))%Z.

(** plot_helper.py 334-352. An IntSlider converts its limits with [int]. The format of the description fails on None. *)
Record slider := { s_min : R; s_max : R; s_step : R; s_value : number }.
Definition get_slider (value : number) (lower : xr) (upper : option xr) : res slider :=
  do r <- generate_range (value_of value) lower upper;
  let '(min_v, max_v, step) := r in
  match upper with
  | None => Err TypeError
  | Some _ =>
    Ok match value with
       | Floating _ => {| s_min := min_v; s_max := max_v; s_step := step; s_value := value |}
       | Whole _ => {| s_min := IZR (trunc min_v); s_max := IZR (trunc max_v); s_step := 1; s_value := value |}
       end
  end.

(** What the user can set a slider to: a position between its limits. *)
Definition position (s : slider) (x : R) : Prop := s_min s <= x <= s_max s.

(** distributions.py 1092-1094: one slider for each parameter. *)
Fixpoint sliders (names : list string) (params : list number) (supports : list bound) : res (list (string * slider)) :=
  match names, params, supports with
  | n :: names', v :: params', (l, u) :: supports' =>
    do s <- get_slider v l u; do r <- sliders names' params' supports'; Ok ((n, s) :: r)
  | _, _, _ => Ok []
  end.

(** distributions.py 1083-1091: one slider for each probability of a Categorical, named after the parameter. *)
Fixpoint categorical_sliders (i : nat) (params : list number) : res (list slider) :=
  match params with
  | [] => Ok []
  | v :: params' => do s <- get_slider v (Fin 0) (Some (Fin 1)); do r <- categorical_sliders (S i) params'; Ok (s :: r)
  end.
End Round.

(** The keys of [init_vals], distribution_helper.py 204-253: every family, and four more classes. *)
Definition has_init_vals (c : cls) : bool :=
  match c with Fam _ | CCategorical | CTruncated | CCensored | CDirichlet => true | CMvNormal | CMixture | CHurdle => false end.
(** distributions.py 1057-1067: where the first values of a univariate distribution come from; [base] is the class of the
    base distribution of a Truncated or Censored. *)
Inductive start := Own | Default (c : cls) | Both (base : cls).
Definition first_values (c : cls) (base : cls) (frozen : bool) (kind : string) (params : list pv) : res start :=
  do scalar <- valid_scalar_params frozen kind (class_name c) params false true;
  if scalar then Ok Own
  else match c with
       | CTruncated | CCensored => if has_init_vals base then Ok (Both base) else Err KeyError
       | _ => if has_init_vals c then Ok (Default c) else Err KeyError
       end.
