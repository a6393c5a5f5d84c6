(** Model of the HPACK Huffman coder, src/http/http2/hpack/huffman.rs. *)
From Coq Require Import NArith Bool List.
From Verif Require Import Base.
Import ListNotations.
Local Open Scope N_scope.

(** huffman.rs:219-477 HUFFMAN_CODE_ARRAY: (code, length in bits) of the symbols 0..255 and, last, of
    EOS.  Generated from the source text; the hexadecimal literals are written in decimal. *)
Definition HUFFMAN_CODE_ARRAY : list (N * N) := [
   (8184, 13); (8388568, 23); (268435426, 28); (268435427, 28); (268435428, 28); (268435429, 28);
   (268435430, 28); (268435431, 28); (268435432, 28); (16777194, 24); (1073741820, 30); (268435433, 28);
   (268435434, 28); (1073741821, 30); (268435435, 28); (268435436, 28); (268435437, 28); (268435438, 28);
   (268435439, 28); (268435440, 28); (268435441, 28); (268435442, 28); (1073741822, 30); (268435443, 28);
   (268435444, 28); (268435445, 28); (268435446, 28); (268435447, 28); (268435448, 28); (268435449, 28);
   (268435450, 28); (268435451, 28); (20, 6); (1016, 10); (1017, 10); (4090, 12);
   (8185, 13); (21, 6); (248, 8); (2042, 11); (1018, 10); (1019, 10);
   (249, 8); (2043, 11); (250, 8); (22, 6); (23, 6); (24, 6);
   (0, 5); (1, 5); (2, 5); (25, 6); (26, 6); (27, 6);
   (28, 6); (29, 6); (30, 6); (31, 6); (92, 7); (251, 8);
   (32764, 15); (32, 6); (4091, 12); (1020, 10); (8186, 13); (33, 6);
   (93, 7); (94, 7); (95, 7); (96, 7); (97, 7); (98, 7);
   (99, 7); (100, 7); (101, 7); (102, 7); (103, 7); (104, 7);
   (105, 7); (106, 7); (107, 7); (108, 7); (109, 7); (110, 7);
   (111, 7); (112, 7); (113, 7); (114, 7); (252, 8); (115, 7);
   (253, 8); (8187, 13); (524272, 19); (8188, 13); (16380, 14); (34, 6);
   (32765, 15); (3, 5); (35, 6); (4, 5); (36, 6); (5, 5);
   (37, 6); (38, 6); (39, 6); (6, 5); (116, 7); (117, 7);
   (40, 6); (41, 6); (42, 6); (7, 5); (43, 6); (118, 7);
   (44, 6); (8, 5); (9, 5); (45, 6); (119, 7); (120, 7);
   (121, 7); (122, 7); (123, 7); (32766, 15); (2044, 11); (16381, 14);
   (8189, 13); (268435452, 28); (1048550, 20); (4194258, 22); (1048551, 20); (1048552, 20);
   (4194259, 22); (4194260, 22); (4194261, 22); (8388569, 23); (4194262, 22); (8388570, 23);
   (8388571, 23); (8388572, 23); (8388573, 23); (8388574, 23); (16777195, 24); (8388575, 23);
   (16777196, 24); (16777197, 24); (4194263, 22); (8388576, 23); (16777198, 24); (8388577, 23);
   (8388578, 23); (8388579, 23); (8388580, 23); (2097116, 21); (4194264, 22); (8388581, 23);
   (4194265, 22); (8388582, 23); (8388583, 23); (16777199, 24); (4194266, 22); (2097117, 21);
   (1048553, 20); (4194267, 22); (4194268, 22); (8388584, 23); (8388585, 23); (2097118, 21);
   (8388586, 23); (4194269, 22); (4194270, 22); (16777200, 24); (2097119, 21); (4194271, 22);
   (8388587, 23); (8388588, 23); (2097120, 21); (2097121, 21); (4194272, 22); (2097122, 21);
   (8388589, 23); (4194273, 22); (8388590, 23); (8388591, 23); (1048554, 20); (4194274, 22);
   (4194275, 22); (4194276, 22); (8388592, 23); (4194277, 22); (4194278, 22); (8388593, 23);
   (67108832, 26); (67108833, 26); (1048555, 20); (524273, 19); (4194279, 22); (8388594, 23);
   (4194280, 22); (33554412, 25); (67108834, 26); (67108835, 26); (67108836, 26); (134217694, 27);
   (134217695, 27); (67108837, 26); (16777201, 24); (33554413, 25); (524274, 19); (2097123, 21);
   (67108838, 26); (134217696, 27); (134217697, 27); (67108839, 26); (134217698, 27); (16777202, 24);
   (2097124, 21); (2097125, 21); (67108840, 26); (67108841, 26); (268435453, 28); (134217699, 27);
   (134217700, 27); (134217701, 27); (1048556, 20); (16777203, 24); (1048557, 20); (2097126, 21);
   (4194281, 22); (2097127, 21); (2097128, 21); (8388595, 23); (4194282, 22); (4194283, 22);
   (33554414, 25); (33554415, 25); (16777204, 24); (16777205, 24); (67108842, 26); (8388596, 23);
   (67108843, 26); (134217702, 27); (67108844, 26); (67108845, 26); (134217703, 27); (134217704, 27);
   (134217705, 27); (134217706, 27); (134217707, 27); (268435454, 28); (134217708, 27); (134217709, 27);
   (134217710, 27); (134217711, 27); (134217712, 27); (67108846, 26); (1073741823, 30)].

(** huffman.rs:479-487 HUFFMAN_CODE_MAP.  The hash map is an association search in which a later
    insertion of an equal key wins; the value is [symbol as u8], so EOS (256) is stored as 0. *)
Fixpoint code_map_from (symbol : N) (t : list (N * N)) (key : N * N) : option N :=
  match t with
  | [] => None
  | (c, n) :: t' =>
    match code_map_from (symbol + 1) t' key with
    | Some v => Some v
    | None => if (c =? fst key) && (n =? snd key) then Some (symbol mod 256) else None
    end
  end.
Definition code_map (key : N * N) : option N := code_map_from 0 HUFFMAN_CODE_ARRAY key.

(** huffman.rs:101-148 BitIterator: the bits of a byte, most significant first. *)
Definition byte_bits (b : N) : list bool := map (fun i => N.testbit b i) [7; 6; 5; 4; 3; 2; 1; 0].
Definition bit_iter (l : bytes) : list bool := flat_map byte_bits l.

(** huffman.rs:49-52 the local variables of [decode]; [result] is kept reversed. *)
Record hstate := mkH { h_current : N; h_len : N; h_true : bool; h_result : bytes }.

(** huffman.rs:54-71 one iteration of the loop; [current_len] is a u8 (its increment panics past 255
    in a build with overflow checks), [current] a u32 (the shift drops the high bits). *)
Definition hstep (s : hstate) (b : bool) : res hstate :=
  let len := h_len s + 1 in
  if 255 <? len then Panic
  else
    let cur := (N.shiftl (h_current s) 1) mod 2 ^ 32 in
    let cur := if b then N.lor cur 1 else cur in
    let all := if b then h_true s else false in
    match code_map (cur, len) with
    | Some v => Ok (mkH 0 0 true (v :: h_result s))
    | None => Ok (mkH cur len all (h_result s))
    end.

Fixpoint hsteps (s : hstate) (l : list bool) : res hstate :=
  match l with
  | [] => Ok s
  | b :: l' => s' <- hstep s b ;; hsteps s' l'
  end.

(** huffman.rs:48-89 HuffmanDecoder::decode *)
Definition huff_decode (buf : bytes) : res bytes :=
  s <- hsteps (mkH 0 0 true []) (bit_iter buf) ;;
  if 7 <? h_len s then Err (EHttp2 (HuffmanErr PaddingTooLarge))
  else if negb (h_true s) then Err (EHttp2 (HuffmanErr PaddingTooLarge))
  else Ok (rev (h_result s)).

(** huffman.rs:166-172 emitting whole bytes from the u64 accumulator; the fuel bounds the number of
    rounds of the [while] (at most 5 are needed, since bits_left >= 3 when it starts). *)
Fixpoint hflush (fuel : nat) (bits room : N) (out : bytes) : N * N * bytes :=
  match fuel with
  | O => (bits, room, out)
  | S f =>
    if room <=? 32
    then hflush f ((N.shiftl bits 8) mod 2 ^ 64) (room + 8) (out ++ [(N.shiftr bits 32) mod 256])
    else (bits, room, out)
  end.

(** huffman.rs:160-172 one byte of the source; [bits_left - nbits] is a u64 subtraction (Panic below
    zero), the table index is in range for every byte. *)
Definition hput (st : N * N * bytes) (b : N) : res (N * N * bytes) :=
  let '(bits, room, out) := st in
  let '(code, nbits) := nth (N.to_nat b) HUFFMAN_CODE_ARRAY (0, 0) in
  if room <? nbits then Panic
  else
    let bits := N.lor bits ((N.shiftl code (room - nbits)) mod 2 ^ 64) in
    Ok (hflush 8 bits (room - nbits) out).

Fixpoint hputs (st : N * N * bytes) (l : bytes) : res (N * N * bytes) :=
  match l with
  | [] => Ok st
  | b :: l' => st' <- hput st b ;; hputs st' l'
  end.

(** huffman.rs:174-178 the padding *)
Definition hfinish (st : N * N * bytes) : bytes :=
  let '(bits, room, out) := st in
  if room =? 40 then out
  else out ++ [(N.shiftr (N.lor bits (N.shiftl 1 room - 1)) 32) mod 256].

(** huffman.rs:155-179 HuffmanEncoder::encode *)
Definition huff_encode (src : bytes) : res bytes :=
  st <- hputs (0, 40, []) src ;; Ok (hfinish st).

(** huffman.rs:187-191 *)
Definition lower_byte (b : N) : N := if (65 <=? b) && (b <=? 90) then b + 32 else b.

(** huffman.rs:181-210 HuffmanEncoder::encode_lower: the same loop after lower-casing each byte. *)
Definition huff_encode_lower (src : bytes) : res bytes := huff_encode (map lower_byte src).
