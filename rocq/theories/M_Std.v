(** The parts of Rust's std used by the crate: integer formatting and parsing
    (core::fmt::num, core::num::from_str_radix, 64-bit target). *)
From Coq Require Import Ascii String NArith ZArith Bool List.
From Verif Require Import Base.
Import ListNotations.
Local Open Scope N_scope.

Definition usize_max1 : N := 2 ^ 64.
Definition isize_max1 : N := 2 ^ 63.

(** Most significant digit first; [fuel] bounds the number of digits. *)
Fixpoint print_base (fuel : nat) (base : N) (dig : N -> N) (n : N) (acc : bytes) : bytes :=
  match fuel with
  | O => acc
  | S f =>
    let acc' := dig (n mod base) :: acc in
    if n / base =? 0 then acc' else print_base f base dig (n / base) acc'
  end.
(** A number has at most as many digits as bits. *)
Definition print_fuel (n : N) : nat := S (N.to_nat (N.log2 n)).

(** format!("{}", n) *)
Definition dec_print (n : N) : bytes := print_base (print_fuel n) 10 (fun d => 48 + d) n [].
(** format!("{:x}", n) *)
Definition hex_digit (d : N) : N := if d <? 10 then 48 + d else 87 + d.
Definition hex_print (n : N) : bytes := print_base (print_fuel n) 16 hex_digit n [].
(** format!("{}", z) for a signed integer. *)
Definition dec_print_z (z : Z) : bytes :=
  match z with
  | Zneg p => 45 :: dec_print (Npos p)
  | _ => dec_print (Z.to_N z)
  end.

(** Value of a digit string. *)
Definition digits_val (base : N) (val : N -> N) (l : bytes) : N :=
  fold_left (fun a b => a * base + val b) l 0.
Definition dec_digit (b : N) : bool := (48 <=? b) && (b <=? 57).
Definition dec_val (l : bytes) : N := digits_val 10 (fun b => b - 48) l.

(** str::parse::<uN>(): an optional '+', then at least one digit; [None] is a
    ParseIntError (empty, invalid digit or overflow). *)
Definition parse_digits (bound : N) (l : bytes) : option N :=
  match l with
  | [] => None
  | _ => if forallb dec_digit l
         then if dec_val l <? bound then Some (dec_val l) else None
         else None
  end.
Definition parse_uint (bound : N) (l : bytes) : option N :=
  match l with
  | 43 :: r => parse_digits bound r
  | _ => parse_digits bound l
  end.

(** str::parse::<iN>(), values in [-bound, bound). *)
Definition parse_sint (bound : N) (l : bytes) : option Z :=
  match l with
  | 45 :: r => match parse_digits (bound + 1) r with Some n => Some (- Z.of_N n)%Z | None => None end
  | _ => match parse_uint bound l with Some n => Some (Z.of_N n) | None => None end
  end.

(** str::split(':'). *)
Fixpoint split_on (sep : N) (l : bytes) : list bytes :=
  match l with
  | [] => [[]]
  | b :: l' =>
    let r := split_on sep l' in
    if b =? sep then [] :: r
    else match r with
         | p :: ps => (b :: p) :: ps
         | [] => [[b]]
         end
  end.
