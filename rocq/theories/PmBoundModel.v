(** Reading the bounds of a censored or truncated PyMC variable (preliz/ppls/pymc_io.py): PymcModel.from_pymc takes each
    bound as a number; here it is the array the variable's input evaluates to. *)
From Coq Require Import List Bool ZArith String.
From Verif Require Import Base XR FamModel PymcModel.
Import ListNotations.

(** What [inputs[i].eval()] gives: a numpy array of any shape, its entries in order. *)
Record nd := { nd_shape : list nat; nd_vals : list xr }.
Inductive scalar_or_array := Item (x : xr) | Whole (a : nd).
(** pymc_io.py 375-377. *)
Definition as_scalar (a : nd) : scalar_or_array :=
  match nd_vals a with
  | [x] => Item x
  | _ => Whole a
  end.
(** pymc_io.py 259-264 and 272-277: [if np.isnan(b): b = default]. The truth value of an array of several booleans raises
    ValueError; that of an empty one depends on the version of numpy and is written so too. *)
Definition read_bound (default : xr) (a : nd) : res xr :=
  match as_scalar a with
  | Item x => Ok (if xisnan x then default else x)
  | Whole _ => Err ValueError
  end.
(** pymc_io.py 257-267: [base] is from_pymc of the first input. *)
Definition read_censored (base : res pz) (lower upper : nd) : res pz :=
  do lo <- read_bound NInf lower;
  do up <- read_bound PInf upper;
  do b <- base; Ok (PzCensored b lo up).
(** pymc_io.py 269-284, for a variable whose printed name is Truncated followed by [base_name]; [base_params] are the values
    of its inputs 2 to -3. [family_of] looks the name up in preliz.distributions; [ptd_ig]
    as in PymcModel. *)
Definition read_truncated (ptd_ig : xr -> xr -> xr * xr) (base_name : string) (base_params : list xr) (lower upper : nd) : res pz :=
  do lo <- read_bound NInf lower;
  do up <- read_bound PInf upper;
  match family_of base_name with
  | None => Err AttributeError
  | Some f => do d <- reparametrize ptd_ig f base_params; Ok (PzTruncated (PzFam f d) lo up)
  end.
