(** Model of src/http/header.rs with both tables of a HeaderMap: the fields (M_Header) and the [systems] table. *)
From Coq Require Import Ascii String NArith ZArith Bool List.
From Verif Require Import Base M_Std M_Helper M_Header M_Build.
Import ListNotations.
Local Open Scope N_scope.

(** 24-28: HeaderMap; 31-36: new.  A HashMap<String, String> is the list of its entries; nothing that the crate offers
    depends on their order. *)
Record fmap := mkFmap { fm_fields : headers; fm_systems : systems }.
Definition fm_new : fmap := mkFmap [] [].
(** The calls that change a map: 46-67 push, 69-90 insert, 92-100 remove, 102-104 clear, 42-44 and 341-349 iter_mut and
    IndexMut as the function that the caller applies to the fields, 275-277 system_insert. *)
Inductive fm_call :=
| FPush (n v : bytes) | FInsert (n v : bytes) | FRemove (n : bytes) | FClear | FEdit (f : headers -> headers) | FSystem (k v : bytes).
Definition fm_run1 (m : fmap) (c : fm_call) : fmap :=
  match c with
  | FPush n v => mkFmap (hm_push (fm_fields m) n v) (fm_systems m)
  | FInsert n v => mkFmap (hm_insert (fm_fields m) n v) (fm_systems m)
  | FRemove n => mkFmap (fst (hm_remove (fm_fields m) n)) (fm_systems m)
  | FClear => mkFmap (hm_clear (fm_fields m)) (fm_systems m)
  | FEdit f => mkFmap (f (fm_fields m)) (fm_systems m)
  | FSystem k v => mkFmap (fm_fields m) (sys_insert (fm_systems m) k v)
  end.
Definition fm_run (m : fmap) (cs : list fm_call) : fmap := fold_left fm_run1 cs m.
(** 279-285: system_get; 267-273: len, is_empty; 287-297: encode; 367-377: Display; 352-354: into_iter; 358-364: clone *)
Definition fm_system_get (m : fmap) (k : bytes) : option bytes := sys_get (fm_systems m) k.
Definition fm_len (m : fmap) : N := N.of_nat (length (fm_fields m)).
Definition fm_is_empty (m : fmap) : bool := fm_len m =? 0.
Definition fm_encode (m : fmap) : bytes := hm_encode (fm_fields m).
Definition fm_display (m : fmap) : bytes := hm_display (fm_fields m).
Definition fm_into_iter (m : fmap) : headers := fm_fields m.
Definition fm_clone (m : fmap) : fmap := mkFmap (fm_fields m) (fm_systems m).
(** 24: the derived ==: the fields one by one; the tables by std's == on HashMap: as many entries, and each entry of
    the one has the same value in the other. *)
Fixpoint fields_eqb (a b : headers) : bool :=
  match a, b with
  | [], [] => true
  | (n, v) :: a', (n', v') :: b' => name_eq n n' && beq v v' && fields_eqb a' b'
  | _, _ => false
  end.
Definition sys_eqb (a b : systems) : bool :=
  (N.of_nat (length a) =? N.of_nat (length b)) &&
  forallb (fun kv => match sys_get b (fst kv) with Some v => beq (snd kv) v | None => false end) a.
Definition fm_eqb (a b : fmap) : bool := fields_eqb (fm_fields a) (fm_fields b) && sys_eqb (fm_systems a) (fm_systems b).
