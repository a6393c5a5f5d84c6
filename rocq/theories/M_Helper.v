(** Model of src/helper.rs: character classes and token scanners. *)
From Coq Require Import Ascii String NArith ZArith Bool List.
From Verif Require Import Base M_Std.
Import ListNotations.
Local Open Scope N_scope.

(** src/helper.rs 101-126: URI_MAP, row by row. *)
Definition URI_MAP : list N := [
  0; 0; 0; 0; 0; 0; 0; 0; 0; 0; 0; 0; 0; 0; 0; 0;
  0; 0; 0; 0; 0; 0; 0; 0; 0; 0; 0; 0; 0; 0; 0; 0;
  0; 1; 1; 1; 1; 1; 1; 1; 1; 1; 1; 1; 1; 1; 1; 1;
  1; 1; 1; 1; 1; 1; 1; 1; 1; 1; 1; 1; 0; 1; 0; 1;
  1; 1; 1; 1; 1; 1; 1; 1; 1; 1; 1; 1; 1; 1; 1; 1;
  1; 1; 1; 1; 1; 1; 1; 1; 1; 1; 1; 1; 1; 1; 1; 1;
  1; 1; 1; 1; 1; 1; 1; 1; 1; 1; 1; 1; 1; 1; 1; 1;
  1; 1; 1; 1; 1; 1; 1; 1; 1; 1; 1; 1; 1; 1; 1; 0;
  0; 0; 0; 0; 0; 0; 0; 0; 0; 0; 0; 0; 0; 0; 0; 0;
  0; 0; 0; 0; 0; 0; 0; 0; 0; 0; 0; 0; 0; 0; 0; 0;
  0; 0; 0; 0; 0; 0; 0; 0; 0; 0; 0; 0; 0; 0; 0; 0;
  0; 0; 0; 0; 0; 0; 0; 0; 0; 0; 0; 0; 0; 0; 0; 0;
  0; 0; 0; 0; 0; 0; 0; 0; 0; 0; 0; 0; 0; 0; 0; 0;
  0; 0; 0; 0; 0; 0; 0; 0; 0; 0; 0; 0; 0; 0; 0; 0;
  0; 0; 0; 0; 0; 0; 0; 0; 0; 0; 0; 0; 0; 0; 0; 0;
  0; 0; 0; 0; 0; 0; 0; 0; 0; 0; 0; 0; 0; 0; 0; 0
].

(** src/helper.rs 136-161: URITRANS_MAP, row by row. *)
Definition URITRANS_MAP : list N := [
  0; 0; 0; 0; 0; 0; 0; 0; 0; 0; 0; 0; 0; 0; 0; 0;
  0; 0; 0; 0; 0; 0; 0; 0; 0; 0; 0; 0; 0; 0; 0; 0;
  0; 0; 0; 0; 0; 0; 1; 0; 0; 0; 0; 0; 0; 1; 1; 1;
  1; 1; 1; 1; 1; 1; 1; 1; 1; 1; 1; 0; 0; 1; 0; 1;
  1; 1; 1; 1; 1; 1; 1; 1; 1; 1; 1; 1; 1; 1; 1; 1;
  1; 1; 1; 1; 1; 1; 1; 1; 1; 1; 1; 0; 0; 0; 0; 1;
  0; 1; 1; 1; 1; 1; 1; 1; 1; 1; 1; 1; 1; 1; 1; 1;
  1; 1; 1; 1; 1; 1; 1; 1; 1; 1; 1; 0; 0; 0; 0; 0;
  0; 0; 0; 0; 0; 0; 0; 0; 0; 0; 0; 0; 0; 0; 0; 0;
  0; 0; 0; 0; 0; 0; 0; 0; 0; 0; 0; 0; 0; 0; 0; 0;
  0; 0; 0; 0; 0; 0; 0; 0; 0; 0; 0; 0; 0; 0; 0; 0;
  0; 0; 0; 0; 0; 0; 0; 0; 0; 0; 0; 0; 0; 0; 0; 0;
  0; 0; 0; 0; 0; 0; 0; 0; 0; 0; 0; 0; 0; 0; 0; 0;
  0; 0; 0; 0; 0; 0; 0; 0; 0; 0; 0; 0; 0; 0; 0; 0;
  0; 0; 0; 0; 0; 0; 0; 0; 0; 0; 0; 0; 0; 0; 0; 0;
  0; 0; 0; 0; 0; 0; 0; 0; 0; 0; 0; 0; 0; 0; 0; 0
].

(** src/helper.rs 169-186: HEADER_NAME_MAP, row by row. *)
Definition HEADER_NAME_MAP : list N := [
  0; 0; 0; 0; 0; 0; 0; 0; 0; 0; 0; 0; 0; 0; 0; 0;
  0; 0; 0; 0; 0; 0; 0; 0; 0; 0; 0; 0; 0; 0; 0; 0;
  0; 1; 0; 1; 1; 1; 1; 1; 0; 0; 1; 1; 0; 1; 1; 0;
  1; 1; 1; 1; 1; 1; 1; 1; 1; 1; 0; 0; 0; 0; 0; 0;
  0; 1; 1; 1; 1; 1; 1; 1; 1; 1; 1; 1; 1; 1; 1; 1;
  1; 1; 1; 1; 1; 1; 1; 1; 1; 1; 1; 0; 0; 0; 1; 1;
  1; 1; 1; 1; 1; 1; 1; 1; 1; 1; 1; 1; 1; 1; 1; 1;
  1; 1; 1; 1; 1; 1; 1; 1; 1; 1; 1; 0; 1; 0; 1; 0;
  0; 0; 0; 0; 0; 0; 0; 0; 0; 0; 0; 0; 0; 0; 0; 0;
  0; 0; 0; 0; 0; 0; 0; 0; 0; 0; 0; 0; 0; 0; 0; 0;
  0; 0; 0; 0; 0; 0; 0; 0; 0; 0; 0; 0; 0; 0; 0; 0;
  0; 0; 0; 0; 0; 0; 0; 0; 0; 0; 0; 0; 0; 0; 0; 0;
  0; 0; 0; 0; 0; 0; 0; 0; 0; 0; 0; 0; 0; 0; 0; 0;
  0; 0; 0; 0; 0; 0; 0; 0; 0; 0; 0; 0; 0; 0; 0; 0;
  0; 0; 0; 0; 0; 0; 0; 0; 0; 0; 0; 0; 0; 0; 0; 0;
  0; 0; 0; 0; 0; 0; 0; 0; 0; 0; 0; 0; 0; 0; 0; 0
].

(** src/helper.rs 193-210: HEADER_VALUE_MAP, row by row. *)
Definition HEADER_VALUE_MAP : list N := [
  1; 1; 1; 1; 1; 1; 1; 1; 1; 1; 1; 1; 1; 0; 1; 1;
  1; 1; 1; 1; 1; 1; 1; 1; 1; 1; 1; 1; 1; 1; 1; 1;
  1; 1; 1; 1; 1; 1; 1; 1; 1; 1; 1; 1; 1; 1; 1; 1;
  1; 1; 1; 1; 1; 1; 1; 1; 1; 1; 1; 1; 1; 1; 1; 1;
  1; 1; 1; 1; 1; 1; 1; 1; 1; 1; 1; 1; 1; 1; 1; 1;
  1; 1; 1; 1; 1; 1; 1; 1; 1; 1; 1; 1; 1; 1; 1; 1;
  1; 1; 1; 1; 1; 1; 1; 1; 1; 1; 1; 1; 1; 1; 1; 1;
  1; 1; 1; 1; 1; 1; 1; 1; 1; 1; 1; 1; 1; 1; 1; 1;
  1; 1; 1; 1; 1; 1; 1; 1; 1; 1; 1; 1; 1; 1; 1; 1;
  1; 1; 1; 1; 1; 1; 1; 1; 1; 1; 1; 1; 1; 1; 1; 1;
  1; 1; 1; 1; 1; 1; 1; 1; 1; 1; 1; 1; 1; 1; 1; 1;
  1; 1; 1; 1; 1; 1; 1; 1; 1; 1; 1; 1; 1; 1; 1; 1;
  1; 1; 1; 1; 1; 1; 1; 1; 1; 1; 1; 1; 1; 1; 1; 1;
  1; 1; 1; 1; 1; 1; 1; 1; 1; 1; 1; 1; 1; 1; 1; 1;
  1; 1; 1; 1; 1; 1; 1; 1; 1; 1; 1; 1; 1; 1; 1; 1;
  1; 1; 1; 1; 1; 1; 1; 1; 1; 1; 1; 1; 1; 1; 1; 1
].

(** src/url/scheme.rs 34-56: SCHEME_MAP, row by row. *)
Definition SCHEME_MAP : list N := [
  0; 0; 0; 0; 0; 0; 0; 0; 0; 0; 0; 0; 0; 0; 0; 0;
  0; 0; 0; 0; 0; 0; 0; 0; 0; 0; 0; 0; 0; 0; 0; 0;
  0; 0; 0; 0; 0; 0; 0; 0; 0; 0; 0; 1; 0; 1; 1; 0;
  1; 1; 1; 1; 1; 1; 1; 1; 1; 1; 0; 0; 0; 0; 0; 0;
  0; 1; 1; 1; 1; 1; 1; 1; 1; 1; 1; 1; 1; 1; 1; 1;
  1; 1; 1; 1; 1; 1; 1; 1; 1; 1; 1; 0; 0; 0; 0; 0;
  0; 1; 1; 1; 1; 1; 1; 1; 1; 1; 1; 1; 1; 1; 1; 1;
  1; 1; 1; 1; 1; 1; 1; 1; 1; 1; 1; 0; 0; 0; 0; 0;
  0; 0; 0; 0; 0; 0; 0; 0; 0; 0; 0; 0; 0; 0; 0; 0;
  0; 0; 0; 0; 0; 0; 0; 0; 0; 0; 0; 0; 0; 0; 0; 0;
  0; 0; 0; 0; 0; 0; 0; 0; 0; 0; 0; 0; 0; 0; 0; 0;
  0; 0; 0; 0; 0; 0; 0; 0; 0; 0; 0; 0; 0; 0; 0; 0;
  0; 0; 0; 0; 0; 0; 0; 0; 0; 0; 0; 0; 0; 0; 0; 0;
  0; 0; 0; 0; 0; 0; 0; 0; 0; 0; 0; 0; 0; 0; 0; 0;
  0; 0; 0; 0; 0; 0; 0; 0; 0; 0; 0; 0; 0; 0; 0; 0;
  0; 0; 0; 0; 0; 0; 0; 0; 0; 0; 0; 0; 0; 0; 0; 0
].

(** src/macros.rs 13-18 byte_map! and the indexing [MAP[b as usize]]. *)
Definition in_map (m : list N) (b : N) : bool := nth (N.to_nat b) m 0 =? 1.

(** helper.rs 34-36 *)
Definition is_token (b : N) : bool := (31 <? b) && (b <? 127) && negb (b =? 32).
(** 40-42 *)
Definition is_status_token (b : N) : bool := (31 <? b) && (b <? 127).
(** 45-53 *)
Definition is_alpha (b : N) : bool :=
  if (65 <=? b) && (b <=? 90) then true else if (97 <=? b) && (b <=? 122) then true else false.
(** 58-64 *)
Definition is_digit (b : N) : bool := (48 <=? b) && (b <=? 57).
(** 67-77 *)
Definition is_hex (b : N) : bool :=
  if (48 <=? b) && (b <=? 57) then true
  else if (65 <=? b) && (b <=? 70) then true
  else if (97 <=? b) && (b <=? 102) then true else false.
(** 84-94 *)
Definition convert_hex (b : N) : option N :=
  if (48 <=? b) && (b <=? 57) then Some (b - 48)
  else if (65 <=? b) && (b <=? 70) then Some (b - 65 + 10)
  else if (97 <=? b) && (b <=? 102) then Some (b - 97 + 10) else None.
(** 79-81 and 96-97: to_hex; indexing above 15 panics, the callers stay below. *)
Definition HEX_MAP : bytes := str "0123456789ABCDEF".
Definition to_hex (b : N) : N := nth (N.to_nat b) HEX_MAP 0.

(** 130-132, 165-167, 189-191, 214-216, url/scheme.rs 59-61 *)
Definition is_uri_token := in_map URI_MAP.
Definition is_not_uritrans := in_map URITRANS_MAP.
Definition is_header_name_token := in_map HEADER_NAME_MAP.
Definition is_header_value_token := in_map HEADER_VALUE_MAP.
Definition is_scheme_token := in_map SCHEME_MAP.

(** The scan of parse_token_by_func_empty (247-259): the longest prefix
    satisfying [f]; [None] when the end of the buffer is reached (peek! fails
    with Partial). *)
Fixpoint scan (f : N -> bool) (l : bytes) : option (bytes * bytes) :=
  match l with
  | [] => None
  | b :: l' =>
    if f b then match scan f l' with
                | Some (t, r) => Some (b :: t, r)
                | None => None
                end
    else Some ([], l)
  end.

(** 246-273: parse_token_by_func_empty. With [empty] set and an empty token,
    one byte is consumed and "" is returned. *)
Definition parse_token_by (f : N -> bool) (err : werr) (empty : bool) (l : bytes) : res (bytes * bytes) :=
  match scan f l with
  | None => partial
  | Some ([], r) =>
    if empty then match r with
                  | _ :: r' => Ok ([], r')
                  | [] => partial
                  end
    else Err err
  | Some (t, r) => Ok (t, r)
  end.

(** 280-313 *)
Definition parse_hex := parse_token_by is_hex (EHttp Token) false.
Definition parse_token := parse_token_by is_token (EHttp Token) false.
Definition parse_status_token := parse_token_by is_status_token (EHttp Token) false.
(** The name is turned into a HeaderName by from_bytes (http/name.rs 168-178):
    its bytes are kept, as lossy UTF-8 (they are ASCII here). *)
Definition parse_header_name := parse_token_by is_header_name_token (EHttp HeaderNameErr) false.
Definition parse_header_value := parse_token_by is_header_value_token (EHttp HeaderValueErr) true.
Definition parse_scheme_token := parse_token_by is_scheme_token (EHttp HeaderValueErr) false.

(** macros.rs 21-28, 53-64: next! and expect!(buffer.next() == b => Err(e)). *)
Definition next (l : bytes) : res (N * bytes) :=
  match l with
  | b :: l' => Ok (b, l')
  | [] => partial
  end.
Definition expect (b : N) (e : werr) (l : bytes) : res (unit * bytes) :=
  ' (c, l') <- next l ;; if c =? b then Ok (tt, l') else Err e.

(** 316-328: skip_new_line. A lone space is accepted as an end of line and any
    other byte is reported as Partial. *)
Definition skip_new_line (l : bytes) : res (unit * bytes) :=
  ' (b, l1) <- next l ;;
  if b =? 13 then expect 10 (EHttp NewLine) l1
  else if b =? 10 then Ok (tt, l1)
  else if b =? 32 then Ok (tt, l1)
  else partial.

(** 331-348: skip_empty_lines. *)
Fixpoint skip_empty_lines (l : bytes) : res (unit * bytes) :=
  match l with
  | [] => partial
  | b :: l1 =>
    if b =? 13 then
      match l1 with
      | [] => partial
      | c :: l2 => if c =? 10 then skip_empty_lines l2 else Err (EHttp NewLine)
      end
    else if b =? 10 then skip_empty_lines l1
    else Ok (tt, l)
  end.

(** 351-364: skip_spaces. *)
Fixpoint skip_spaces (l : bytes) : res (unit * bytes) :=
  match l with
  | [] => partial
  | b :: l1 => if b =? 32 then skip_spaces l1 else Ok (tt, l)
  end.

(** 441-455: eq_bytes_ignore_ascii_case; [wrapping_sub] on u8. *)
Definition eq_byte_ic (a b : N) : bool :=
  if a =? b then true
  else let wrap := (a + 256 - b) mod 256 in (wrap =? 32) || (wrap =? 224).
Fixpoint eq_bytes_ic (a b : bytes) : bool :=
  match a, b with
  | [], [] => true
  | x :: a', y :: b' => eq_byte_ic x y && eq_bytes_ic a' b'
  | _, _ => false
  end.

(** 464-474: contains_bytes (also http/header.rs 299-309). *)
Fixpoint is_prefix (p l : bytes) : bool :=
  match p, l with
  | [], _ => true
  | x :: p', y :: l' => (x =? y) && is_prefix p' l'
  | _, [] => false
  end.
Fixpoint contains_bytes (a b : bytes) : bool :=
  is_prefix b a || match a with [] => false | _ :: a' => contains_bytes a' b end.

(** 392-407: parse_chunk_data. Returns (length of the size line, chunk length);
    the caller's buffer is not consumed. [from_str_radix(..).unwrap()] panics
    from 2^64, and [num + 2] overflows for the last two values. *)
Definition hex_val_digit (b : N) : N := match convert_hex b with Some v => v | None => 0 end.
Definition hex_val (l : bytes) : N := digits_val 16 hex_val_digit l.
Definition parse_chunk_data (l : bytes) : res (N * N) :=
  ' (t, l1) <- parse_hex l ;;
  let num := hex_val t in
  if usize_max1 <=? num then Panic else
  ' (_, l2) <- skip_new_line l1 ;;
  if usize_max1 <=? num + 2 then Panic
  else if blen l2 <? num + 2 then partial
  else Ok (blen l - blen l2, num).

(** 409-416: encode_chunk_data. *)
Definition crlf : bytes := [13; 10].
Definition encode_chunk_data (data : bytes) : bytes := hex_print (blen data) ++ crlf ++ data ++ crlf.

(** 419-438: hex_to_vec. [u8::from_str_radix] of a one-byte string fails, and
    the unwrap panics, on anything but a hex digit; a byte >= 128 already fails
    in [from_utf8]. [pend] is [Some val] when [is_first] is false. *)
Fixpoint hex_to_vec_loop (pend : option N) (l : bytes) : res bytes :=
  match l with
  | [] => Ok []
  | b :: l' =>
    if b =? 32 then hex_to_vec_loop pend l'
    else match convert_hex b with
         | None => Panic
         | Some d =>
           match pend with
           | None => hex_to_vec_loop (Some d) l'
           | Some v => r <- hex_to_vec_loop None l' ;; Ok (v * 16 + d :: r)
           end
         end
  end.
Definition hex_to_vec (l : bytes) : res bytes := hex_to_vec_loop None l.
