(** Specification of the WebSocket base framing protocol, written from
    RFC 6455 section 5.2 and 5.3, independently of the model. *)
From Coq Require Import NArith Bool List.
From Verif Require Import Base.
Import ListNotations.
Local Open Scope N_scope.

Definition bit (b : bool) (weight : N) : N := if b then weight else 0.

(** Section 5.3: octet i of the transformed data is octet i of the original
    data XOR octet (i mod 4) of the masking key. *)
Definition spec_mask (k0 k1 k2 k3 : N) (data : bytes) : bytes :=
  map (fun ib : nat * N => N.lxor (snd ib) (nth (Nat.modulo (fst ib) 4) [k0; k1; k2; k3] 0))
      (combine (seq 0 (length data)) data).

(** Section 5.2: the payload length field, always in its minimal form;
    returns the seven bit field and the extended length octets. *)
Definition spec_len7 (n : N) : N := if n <? 126 then n else if n <? 65536 then 126 else 127.
Definition spec_ext (n : N) : bytes :=
  if n <? 126 then []
  else if n <? 65536 then [n / 256; n mod 256]
  else [n / 2 ^ 56; (n / 2 ^ 48) mod 256; (n / 2 ^ 40) mod 256; (n / 2 ^ 32) mod 256;
        (n / 2 ^ 24) mod 256; (n / 2 ^ 16) mod 256; (n / 2 ^ 8) mod 256; n mod 256].

(** The header of a frame announcing [n] payload octets. *)
Definition spec_header (fin r1 r2 r3 : bool) (op : N) (key : option (N * N * N * N)) (n : N) : bytes :=
  [bit fin 128 + bit r1 64 + bit r2 32 + bit r3 16 + op;
   (match key with Some _ => 128 | None => 0 end) + spec_len7 n]
  ++ spec_ext n
  ++ match key with Some (a, b, c, d) => [a; b; c; d] | None => [] end.

(** A whole frame. *)
Definition spec_frame (fin r1 r2 r3 : bool) (op : N) (key : option (N * N * N * N)) (payload : bytes)
  : bytes :=
  spec_header fin r1 r2 r3 op key (blen payload)
  ++ match key with Some (a, b, c, d) => spec_mask a b c d payload | None => payload end.

(** A key is four octets. *)
Definition key_ok (key : option (N * N * N * N)) : Prop :=
  match key with
  | Some (a, b, c, d) => a < 256 /\ b < 256 /\ c < 256 /\ d < 256
  | None => True
  end.

(** Section 5.5: control frames (opcode 0x8-0xF) carry at most 125 octets and
    must not be fragmented. *)
Definition control_ok (fin : bool) (op n : N) : Prop := 8 <= op -> n <= 125 /\ fin = true.

(** Section 5.4: the frames of a message with opcode [op] cut into [pieces]:
    the first frame carries the opcode, the others opcode 0; FIN is set on the
    last frame only. Each element is (fin, opcode, payload). *)
Fixpoint spec_fragments (op : N) (pieces : list bytes) : list (bool * N * bytes) :=
  match pieces with
  | [] => []
  | [p] => [(true, op, p)]
  | p :: rest => (false, op, p) :: spec_fragments 0 rest
  end.
