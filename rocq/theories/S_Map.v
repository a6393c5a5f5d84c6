(** Specification of header names, of the header map and of integers in header
    values (C14-C18). *)
From Coq Require Import Ascii String NArith ZArith Bool List.
From Verif Require Import Base S_Http1 S_Http1Api.
Import ListNotations.
Local Open Scope N_scope.

(** ** Names *)
(** A-Z mapped to a-z. *)
Definition fold_byte (b : N) : N := if (65 <=? b) && (b <=? 90) then b + 32 else b.
Definition fold_name (n : bytes) : bytes := map fold_byte n.
(** Two names that nowhere oppose two bytes at distance 32 that are not the two
    cases of one letter ('-' and 'M', '1' and 'Q', '^' and '~', ...). *)
Definition clash_free (a b : bytes) : Prop := forall i x y,
  nth_error a i = Some x -> nth_error b i = Some y -> (x = y + 32 \/ y = x + 32) -> alpha x /\ alpha y.
(** Token characters that are not upper-case letters, and not '^'. *)
Definition lower_tchar (b : N) : Prop := tchar b /\ ~ upper b /\ b <> 94.

(** ** The abstract map: names in order of first insertion, and a value for each
    case-folded name. *)
Record amap := mkAmap { a_order : list bytes; a_val : bytes -> option bytes }.
Definition a_empty : amap := mkAmap [] (fun _ => None).
Definition a_put (m : amap) (n v : bytes) : amap :=
  mkAmap (match a_val m (fold_name n) with Some _ => a_order m | None => a_order m ++ [n] end)
         (fun k => if beq k (fold_name n) then Some v else a_val m k).
Definition a_step (m : amap) (o : hop) : amap :=
  match o with
  | HInsert n v | HSet n v => a_put m n v
  | HPush n v => a_put m n (match a_val m (fold_name n) with Some w => w ++ [59] ++ v | None => v end)
  | HRemove n => mkAmap (filter (fun n' => negb (beq (fold_name n') (fold_name n))) (a_order m))
                        (fun k => if beq k (fold_name n) then None else a_val m k)
  | HClear => a_empty
  end.
Definition a_run (ops : list hop) : amap := fold_left a_step ops a_empty.
(** What iteration shows. *)
Definition a_items (m : amap) : list (bytes * option bytes) :=
  map (fun n => (n, a_val m (fold_name n))) (a_order m).

(** ** Numerals *)
Definition decimal (v : bytes) (n : N) : Prop := v <> [] /\ Forall digit v /\ n = num_of v.
(** What the isize conversion of a value reads: minus signs are allowed as long
    as only zeros have been read. *)
Inductive lax_signed : bytes -> Z -> Prop :=
| ls_intro p ds : Forall (fun b => b = 45 \/ b = 48) p -> Forall digit ds ->
    lax_signed (p ++ ds) (if existsb (N.eqb 45) p then (- Z.of_N (num_of ds))%Z else Z.of_N (num_of ds)).
(** What Rust's own integer parser reads. *)
Inductive std_signed : bytes -> Z -> Prop :=
| ss_plain v n : decimal v n -> std_signed v (Z.of_N n)
| ss_plus v n : decimal v n -> std_signed (43 :: v) (Z.of_N n)
| ss_minus v n : decimal v n -> std_signed (45 :: v) (- Z.of_N n).
