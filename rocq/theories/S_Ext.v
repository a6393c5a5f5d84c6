(** Specification of Extensions (C54): the histories of API calls, and the partial map from types to values that
    each of them stands for. *)
From Coq Require Import NArith Bool List.
From Verif Require Import Base M_Ext.
Import ListNotations.
Local Open Scope N_scope.

(** [built e m]: some calls have made [e], and the last value given for each type and not removed since is [m]. *)
Inductive built {V : Type} : extensions V -> (N -> option V) -> Prop :=
| bt_new : built ext_new (fun _ => None)
| bt_insert e m T v : built e m -> built (fst (ext_insert e T v)) (fun U => if U =? T then Some v else m U)
| bt_remove e m T : built e m -> built (fst (ext_remove e T)) (fun U => if U =? T then None else m U)
| bt_get_mut e m T v : built e m ->
    built (fst (ext_get_mut e T v)) (fun U => if U =? T then match m T with Some _ => Some v | None => None end else m U)
| bt_clear e m : built e m -> built (ext_clear e) (fun _ => None)
| bt_extend e m e' m' : built e m -> built e' m' ->
    built (ext_extend e e') (fun U => match m' U with Some v => Some v | None => m U end).
(** [n] types have a value. *)
Definition counts {V : Type} (m : N -> option V) (n : N) : Prop :=
  exists types, NoDup types /\ N.of_nat (length types) = n /\ forall T, In T types <-> m T <> None.
