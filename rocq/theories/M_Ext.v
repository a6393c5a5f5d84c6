(** Model of src/extensions.rs.  A type's TypeId is a number; values of all types are of one Coq type [V].  A
    std::collections::HashMap is a list of its entries, on which insert, get, remove, clear, len and extend
    do what its documentation says; the order of the entries means nothing (extend goes through those of
    the other map in list order).  The hasher (lines 20-40) is not modelled. *)
From Coq Require Import NArith Bool List.
From Verif Require Import Base.
Import ListNotations.
Local Open Scope N_scope.

(** std::collections::HashMap with keys [N] *)
Fixpoint map_get {A} (m : list (N * A)) (k : N) : option A :=
  match m with [] => None | (k', a) :: m' => if k' =? k then Some a else map_get m' k end.
(** insert: the new map and the previous value *)
Fixpoint map_insert {A} (m : list (N * A)) (k : N) (a : A) : list (N * A) * option A :=
  match m with
  | [] => ([(k, a)], None)
  | (k', b) :: m' => if k' =? k then ((k', a) :: m', Some b) else let '(m2, o) := map_insert m' k a in ((k', b) :: m2, o)
  end.
Fixpoint map_remove {A} (m : list (N * A)) (k : N) : list (N * A) * option A :=
  match m with
  | [] => ([], None)
  | (k', b) :: m' => if k' =? k then (m', Some b) else let '(m2, o) := map_remove m' k in ((k', b) :: m2, o)
  end.
Definition map_extend {A} (m other : list (N * A)) : list (N * A) :=
  fold_left (fun acc e => fst (map_insert acc (fst e) (snd e))) other m.

(** Box<dyn Any>: the type and the value; downcast succeeds for that type only *)
Definition boxed (V : Type) : Type := (N * V)%type.
Definition downcast {V} (T : N) (b : boxed V) : option V := if fst b =? T then Some (snd b) else None.

(** 47-51 Extensions *)
Definition extensions (V : Type) : Type := option (list (N * boxed V)).
(** 56-58 new *)
Definition ext_new {V} : extensions V := None.
Definition and_then {A B} (o : option A) (f : A -> option B) : option B := match o with Some a => f a | None => None end.
(** 74-84 insert *)
Definition ext_insert {V} (e : extensions V) (T : N) (v : V) : extensions V * option V :=
  let m := match e with Some m => m | None => [] end in
  let '(m', o) := map_insert m T (T, v) in
  (Some m', and_then o (downcast T)).
(** 98-103 get *)
Definition ext_get {V} (e : extensions V) (T : N) : option V :=
  and_then (and_then e (fun m => map_get m T)) (downcast T).
(** 117-122 get_mut, followed by the assignment of [v] through the reference if there is one: the extensions
    afterwards and the value the reference showed *)
Definition ext_get_mut {V} (e : extensions V) (T : N) (v : V) : extensions V * option V :=
  match e with
  | None => (None, None)
  | Some m =>
    match map_get m T with
    | None => (Some m, None)
    | Some b =>
      match downcast T b with
      | None => (Some m, None)
      | Some old => (Some (fst (map_insert m T (fst b, v))), Some old)
      end
    end
  end.
(** 137-147 remove *)
Definition ext_remove {V} (e : extensions V) (T : N) : extensions V * option V :=
  match e with
  | None => (None, None)
  | Some m => let '(m', o) := map_remove m T in (Some m', and_then o (downcast T))
  end.
(** 162-166 clear *)
Definition ext_clear {V} (e : extensions V) : extensions V := match e with Some _ => Some [] | None => None end.
(** 180-184 is_empty, 198-202 len *)
Definition ext_is_empty {V} (e : extensions V) : bool := match e with Some [] => true | Some _ => false | None => true end.
Definition ext_len {V} (e : extensions V) : N := match e with Some m => N.of_nat (length m) | None => 0 end.
(** 227-235 extend *)
Definition ext_extend {V} (e other : extensions V) : extensions V :=
  match other with
  | None => e
  | Some o => match e with Some m => Some (map_extend m o) | None => Some o end
  end.
