(** Model of the samplers that invert a cumulative distribution function: preliz/distributions/hurdle.py 109-111 (the one of
    truncated.py 120-122 is [t_rvs] of ModModel, that of censored.py 169-170 is [c_rvs], that of mixture.py 136-144 is
    [mix_rvs] of MixModel). [us] are the numbers random_state.uniform(size=size) returns. *)
From Coq Require Import List Reals.
From Verif Require Import XR LawModel ModModel.
Import ListNotations.

Definition h_rvs (d : methods) (psi : xr) (us : list R) : list xr := map (fun u => h_ppf d psi (Fin u)) us.
