(** Theorems on Extensions: C54. *)
From Coq Require Import NArith Bool List.
From Verif Require Import Base M_Ext S_Ext P_Ext.
Import ListNotations.
Local Open Scope N_scope.

(** Whatever calls have been made, get, insert, remove and get_mut show the value of the type in question. *)
Theorem C54_lookup : forall V (e : extensions V) m, built e m -> forall T,
  ext_get e T = m T /\ snd (ext_remove e T) = m T /\ forall v, snd (ext_insert e T v) = m T /\ snd (ext_get_mut e T v) = m T.
Proof.
  intros V e m B T. apply built_inv in B. split; [apply get_spec, B|]. split; [apply remove_spec, B|].
  intros v. split; [apply insert_spec, B|apply get_mut_spec, B].
Qed.
Print Assumptions C54_lookup.
(** len is the number of types with a value, and is_empty says that there is none. *)
Theorem C54_len : forall V (e : extensions V) m, built e m -> counts m (ext_len e) /\ (ext_is_empty e = true <-> forall T, m T = None).
Proof. intros V e m B. apply len_spec, built_inv, B. Qed.
Print Assumptions C54_len.

(** The example in the documentation of extend (204-226): u8 = 1, u16 = 2, str = 3. *)
Definition ext_a : extensions N := fst (ext_insert (fst (ext_insert ext_new 1 8)) 2 16).
Definition ext_b : extensions N := fst (ext_insert (fst (ext_insert ext_new 1 4)) 3 99).
Example C54_nonvacuous : exists m, built (ext_extend ext_a ext_b) m /\ m 1 = Some 4 /\ m 2 = Some 16 /\ m 3 = Some 99 /\
  m 4 = None /\ ext_len (ext_extend ext_a ext_b) = 3 /\ snd (ext_remove (ext_extend ext_a ext_b) 1) = Some 4.
Proof.
  eexists. split; [apply bt_extend; repeat (apply bt_insert || apply bt_new)|]. repeat (split; [reflexivity|]). reflexivity.
Qed.
