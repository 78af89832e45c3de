(** What C64 is about, without the code: what arrays broadcast to, and what a user passed. *)
From Coq Require Import Reals List String.
From Verif Require Import XR DrawModel.
Import ListNotations.

(** The number of values a parameter holds, and its i-th value when it is used together with longer ones. *)
Definition size (v : pv) : nat := match v with Num _ | OtherNum _ => 1 | Arr l => List.length l end.
Definition entry (i : nat) (v : pv) : xr :=
  match v with Num x | OtherNum x => x | Arr [x] => x | Arr l => nth i l NaN end.

(** The values broadcast to [n] combinations. *)
Definition combine_to (n : nat) (vs : list pv) : Prop :=
  (forall v, In v vs -> size v = 1 \/ size v = n)%nat /\ (n = 1 \/ exists v, In v vs /\ size v = n)%nat.
Definition cannot_combine (vs : list pv) : Prop :=
  exists a b, In a vs /\ In b vs /\ (size a <> 1 /\ size b <> 1 /\ size a <> size b)%nat.

(** The i-th combination. *)
Definition combination (i : nat) (params : list (string * pv)) : list (string * pv) :=
  map (fun kv => (fst kv, Num (entry i (snd kv)))) params.
Definition without (names : list string) (params : list (string * pv)) : list (string * pv) :=
  filter (fun kv => negb (existsb (String.eqb (fst kv)) names)) params.
