(** Header names and values as literals or owned strings, for C88: the operations that callers perform on a map of
    them, and what two values or histories have in common when only the storage differs. *)
From Coq Require Import Ascii String NArith ZArith Bool List.
From Verif Require Import Base S_Utf8 M_Header S_Http1Api M_Value.
Import ListNotations.
Local Open Scope N_scope.

(** The bytes of a name and of a value. *)
Definition name_of (n : hname) : bytes := match n with NStand s | NValue s => s end.
Definition value_of (v : hvalue) : bytes := match v with VStand s | VValue s => s end.
Definition fields_of (h : hmap) : list (bytes * bytes) := map (fun nv => (name_of (fst nv), value_of (snd nv))) h.
(** A Rust str or String is UTF-8; an owned value is any bytes. *)
Definition text_value (v : hvalue) : Prop := match v with VStand s => is_utf8 s | VValue _ => True end.
Definition text_values (h : hmap) : Prop := Forall (fun nv => text_value (snd nv)) h.

(** Calls on a map: insert, push, remove, clear and [map[n] = v]. *)
Inductive top := TInsert (n : hname) (v : hvalue) | TPush (n : hname) (v : hvalue) | TRemove (n : bytes) | TClear | TSet (n : bytes) (v : hvalue).
Definition top_run (h : hmap) (o : top) : res hmap :=
  match o with
  | TInsert n v => Ok (tm_insert h n v)
  | TPush n v => Ok (tm_push h n v)
  | TRemove n => Ok (fst (tm_remove h n))
  | TClear => Ok []
  | TSet n v => tm_index_set h n v
  end.
Definition tops_run (ops : list top) : res hmap := fold_left (fun r o => h <- r ;; top_run h o) ops (Ok []).
(** The same call with the storage forgotten. *)
Definition forget (o : top) : hop :=
  match o with
  | TInsert n v => HInsert (name_of n) (value_of v)
  | TPush n v => HPush (name_of n) (value_of v)
  | TRemove n => HRemove n
  | TClear => HClear
  | TSet n v => HSet n (value_of v)
  end.
Definition top_text (o : top) : Prop :=
  match o with TInsert _ v | TPush _ v | TSet _ v => text_value v | TRemove _ | TClear => True end.
