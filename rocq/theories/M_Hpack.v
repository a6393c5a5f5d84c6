(** Model of HPACK, src/http/http2/hpack/{header_index,encoder,decoder}.rs.  Header names and values
    are byte strings (the distinction between static and owned ones is dropped, as in M_Header). *)
From Coq Require Import Ascii String NArith Bool List.
From Verif Require Import Base M_Std M_Helper M_Header M_Huffman.
Import ListNotations.
Local Open Scope N_scope.

Definition field : Type := bytes * bytes.

(** header_index.rs:172-234 STATIC_TABLE_RAW, 237-246 STATIC_TABLE (generated from the source text) *)
Definition STATIC_TABLE_RAW : list (string * string) := [
   (":authority", ""); (":method", "GET"); (":method", "POST");
   (":path", "/"); (":path", "/index.html"); (":scheme", "http");
   (":scheme", "https"); (":status", "200"); (":status", "204");
   (":status", "206"); (":status", "304"); (":status", "400");
   (":status", "404"); (":status", "500"); ("accept-", "");
   ("accept-encoding", "gzip, deflate"); ("accept-language", ""); ("accept-ranges", "");
   ("accept", ""); ("access-control-allow-origin", ""); ("age", "");
   ("allow", ""); ("authorization", ""); ("cache-control", "");
   ("content-disposition", ""); ("content-encoding", ""); ("content-language", "");
   ("content-length", ""); ("content-location", ""); ("content-range", "");
   ("content-type", ""); ("cookie", ""); ("date", "");
   ("etag", ""); ("expect", ""); ("expires", "");
   ("from", ""); ("host", ""); ("if-match", "");
   ("if-modified-since", ""); ("if-none-match", ""); ("if-range", "");
   ("if-unmodified-since", ""); ("last-modified", ""); ("link", "");
   ("location", ""); ("max-forwards", ""); ("proxy-authenticate", "");
   ("proxy-authorization", ""); ("range", ""); ("referer", "");
   ("refresh", ""); ("retry-after", ""); ("server", "");
   ("set-cookie", ""); ("strict-transport-security", ""); ("transfer-encoding", "");
   ("user-agent", ""); ("vary", ""); ("via", "");
   ("www-authenticate", "")]%string.
Definition STATIC_TABLE : list field := map (fun e => (str (fst e), str (snd e))) STATIC_TABLE_RAW.

(** header_index.rs:17-22 HeaderIndex; the front of the deque is the head of the list. *)
Record hindex := mkIdx { hi_table : list field; hi_size : N; hi_max : N }.

(** header_index.rs:92-98 with_size, 50-52 new (DEFAULT_SETTINGS_HEADER_TABLE_SIZE = 4096, http2/mod.rs) *)
Definition hi_with_size (m : N) : hindex := mkIdx [] 0 m.
Definition hi_new : hindex := hi_with_size 4096.

(** header_index.rs:102-104, 119-121, 153-155, 158-164 *)
Definition hi_get_size (t : hindex) : N := hi_size t.
Definition hi_get_max (t : hindex) : N := hi_max t.
Definition hi_len (t : hindex) : nat := length (hi_table t).
Definition hi_to_vec (t : hindex) : list field := hi_table t.

(** header_index.rs:54-72 get_from_index *)
Definition get_from_index (t : hindex) (index : N) : option field :=
  if index =? 0 then None
  else
    let real := N.to_nat (index - 1) in
    if Nat.ltb real (length STATIC_TABLE) then nth_error STATIC_TABLE real
    else nth_error (hi_table t) (real - length STATIC_TABLE).

(** header_index.rs:247-263 STATIC_HASH, a hash map keyed by HeaderName (name.rs:46-72): a key is found
    when it hashes alike (the lower-cased bytes are equal; hash collisions of different inputs are
    ignored) and compares equal.  The inner map is keyed by the value bytes; a later insertion wins. *)
Definition static_match (key n : bytes) : bool :=
  beq (name_hash_input key) (name_hash_input n) && name_eq key n.
Definition static_named (n : bytes) : bool := existsb (fun e : field => static_match (fst e) n) STATIC_TABLE.
Fixpoint static_pos_from (i : N) (l : list field) (n v : bytes) : option N :=
  match l with
  | [] => None
  | e :: l' =>
    match static_pos_from (i + 1) l' n v with
    | Some k => Some k
    | None => if static_match (fst e) n && beq (snd e) v then Some i else None
    end
  end.
Definition static_pos (n v : bytes) : option N := static_pos_from 1 STATIC_TABLE n v.

(** header_index.rs:82-86 the search of the dynamic table *)
Fixpoint dyn_find (i : N) (l : list field) (n v : bytes) : option N :=
  match l with
  | [] => None
  | e :: l' => if name_eq (fst e) n && beq (snd e) v then Some i else dyn_find (i + 1) l' n v
  end.

(** header_index.rs:74-90 find_header *)
Definition find_header (t : hindex) (f : field) : option (N * bool) :=
  let '(n, v) := f in
  if static_named n then
    match static_pos n v with
    | Some i => Some (i, true)
    | None =>
      match static_pos n [] with
      | Some i => Some (i, false)
      | None => None
      end
    end
  else
    match dyn_find 0 (hi_table t) n v with
    | Some i => Some (i + 1 + N.of_nat (length STATIC_TABLE), true)
    | None => None
    end.

(** header_index.rs:124 and 147 the size of an entry *)
Definition entry_size (f : field) : N := blen (fst f) + blen (snd f) + 32.

(** VecDeque::back *)
Definition back {A} (l : list A) : option A :=
  match l with [] => None | x :: l' => Some (last l' x) end.

(** header_index.rs:136-151 consolidate_table.  The fuel is one more than the number of entries: every
    round removes one, and the round that finds none panics. *)
Fixpoint consolidate (fuel : nat) (t : hindex) : res hindex :=
  match fuel with
  | O => Diverge
  | S f =>
    if hi_max t <? hi_size t then
      match back (hi_table t) with
      | None => Panic
      | Some e =>
        if hi_size t <? entry_size e then Panic
        else consolidate f (mkIdx (removelast (hi_table t)) (hi_size t - entry_size e) (hi_max t))
      end
    else Ok t
  end.
Definition consolidate_table (t : hindex) : res hindex := consolidate (S (length (hi_table t))) t.

(** header_index.rs:112-116 *)
Definition set_max_table_size (t : hindex) (m : N) : res hindex :=
  consolidate_table (mkIdx (hi_table t) (hi_size t) m).

(** header_index.rs:123-131 (the sum of lengths of byte strings in memory does not reach 2^64) *)
Definition add_header (t : hindex) (f : field) : res hindex :=
  consolidate_table (mkIdx (f :: hi_table t) (hi_size t + entry_size f) (hi_max t)).

(** ---- encoder.rs ---- *)

(** encoder.rs:155-159, decoder.rs:197-201 the prefix mask *)
Definition prefix_mask (p : N) : N := if 8 <=? p then 255 else 2 ^ p - 1.

(** encoder.rs:169-173 *)
Fixpoint int_tail (fuel : nat) (v : N) : bytes :=
  match fuel with
  | O => []
  | S f => if 128 <=? v then (v mod 128 + 128) :: int_tail f (v / 128) else [v]
  end.

(** encoder.rs:149-175 encode_integer_into (the bytes written) *)
Definition encode_integer (value prefix leading : N) : bytes :=
  let mask := prefix_mask prefix in
  let lead := N.land leading (255 - mask) in
  if value <? mask then [N.lor lead value]
  else N.lor lead mask :: int_tail (print_fuel (value - mask)) (value - mask).

(** encoder.rs:119-128 encode_string_literal, 108-117 encode_string_literal_lower *)
Definition encode_string (s : bytes) : res bytes :=
  v <- huff_encode s ;; Ok (encode_integer (blen v) 7 128 ++ v).
Definition encode_string_lower (s : bytes) : res bytes :=
  v <- huff_encode_lower s ;; Ok (encode_integer (blen v) 7 128 ++ v).

(** encoder.rs:94-106 *)
Definition encode_literal (f : field) (should_index : bool) : res bytes :=
  n <- encode_string_lower (fst f) ;;
  v <- encode_string (snd f) ;;
  Ok ((if should_index then 64 else 0) :: n ++ v).
(** encoder.rs:130-142 *)
Definition encode_indexed_name (i : N) (value : bytes) (should_index : bool) : res bytes :=
  v <- encode_string value ;;
  Ok (encode_integer i (if should_index then 6 else 4) (if should_index then 64 else 0) ++ v).
(** encoder.rs:144-147 *)
Definition encode_indexed (i : N) : bytes := encode_integer i 7 128.

(** encoder.rs:65-92 encode_header_into: the new table and the bytes appended to the writer *)
Definition encode_header (t : hindex) (f : field) : res (hindex * bytes) :=
  match find_header t f with
  | None =>
    b <- encode_literal f true ;;
    t' <- add_header t f ;;
    Ok (t', b)
  | Some (i, false) =>
    b <- encode_indexed_name i (snd f) true ;;
    t' <- add_header t f ;;
    Ok (t', b)
  | Some (i, true) => Ok (t, encode_indexed i)
  end.

(** encoder.rs:42-63 encode, encode_into *)
Fixpoint encode_headers (t : hindex) (l : list field) : res (hindex * bytes) :=
  match l with
  | [] => Ok (t, [])
  | f :: l' =>
    ' (t1, b1) <- encode_header t f ;;
    ' (t2, b2) <- encode_headers t1 l' ;;
    Ok (t2, b1 ++ b2)
  end.

(** ---- decoder.rs ---- *)

Definition int_err (e : int_dec_err) : werr := EHttp2 (DecoderErr (IntegerDecodingError e)).
Definition str_err (e : str_dec_err) : werr := EHttp2 (DecoderErr (StringDecodingError e)).
Definition oob_err : werr := EHttp2 (DecoderErr HeaderIndexOutOfBounds).

(** decoder.rs:212-235 the continuation octets; [m] is the shift, [total] the octets read so far *)
Fixpoint int_loop (value m total : N) (l : bytes) : res (N * N) :=
  match l with
  | [] => Err (int_err NotEnoughOctetsI)
  | b :: l' =>
    let total := total + 1 in
    let value := value + N.land b 127 * 2 ^ m in
    if negb (N.land b 128 =? 128) then Ok (value, total)
    else if total =? 5 then Err (int_err TooManyOctets)
    else int_loop value (m + 7) total l'
  end.

(** decoder.rs:184-236 decode_integer: the value and the number of octets used *)
Definition decode_integer (buf : bytes) (prefix : N) : res (N * N) :=
  if (prefix <? 1) || (8 <? prefix) then Err (int_err InvalidPrefix)
  else
    match buf with
    | [] => Err (int_err NotEnoughOctetsI)
    | b0 :: l =>
      let mask := prefix_mask prefix in
      let value := N.land b0 mask in
      if value <? mask then Ok (value, 1) else int_loop value 0 1 l
    end.

(** decoder.rs:238-264 decode_string: the octets and the number of octets used.
    [buf[0] & 128] is read after decode_integer succeeded, so the buffer is not empty. *)
Definition decode_string (buf : bytes) : res (bytes * N) :=
  ' (len, consumed) <- decode_integer buf 7 ;;
  if blen buf <? consumed + len then Err (str_err NotEnoughOctetsS)
  else
    let raw := firstn (N.to_nat len) (skipn (N.to_nat consumed) buf) in
    if N.land (hd 0 buf) 128 =? 128
    then d <- huff_decode raw ;; Ok (d, consumed + len)
    else Ok (raw, consumed + len).

(** name.rs:168-177 HeaderName::from_bytes: known names are kept, others go through from_utf8_lossy
    (which leaves ASCII text, hence the known names, unchanged); never None. *)
Definition name_from_bytes (b : bytes) : bytes := utf8_lossy b.

(** slicing [&buf[n..]]: panics when n is beyond the end *)
Definition slice_from (buf : bytes) (n : N) : res bytes :=
  if blen buf <? n then Panic else Ok (skipn (N.to_nat n) buf).

(** decoder.rs:312-323 get_from_table *)
Definition get_from_table (t : hindex) (i : N) : res field :=
  match get_from_index t i with Some f => Ok f | None => Err oob_err end.

(** decoder.rs:266-297 decode_literal *)
Definition decode_literal (t : hindex) (buf : bytes) (index : bool) : res (field * N) :=
  ' (i, consumed) <- decode_integer buf (if index then 6 else 4) ;;
  ' (name, consumed) <-
    (if i =? 0 then
       rest <- slice_from buf consumed ;;
       ' (n, k) <- decode_string rest ;;
       Ok (name_from_bytes n, consumed + k)
     else
       f <- get_from_table t i ;; Ok (fst f, consumed)) ;;
  rest <- slice_from buf consumed ;;
  ' (v, k) <- decode_string rest ;;
  Ok ((name, v), consumed + k).

(** decoder.rs:299-310 decode_indexed *)
Definition decode_indexed (t : hindex) (octet : N) : res (field * N) :=
  f <- get_from_table t (N.land octet 127) ;; Ok (f, 1).

(** decoder.rs:25-52 FieldRepresentation::new *)
Inductive representation := RIndexed | RIncremental | RSizeUpdate | RNever | RWithout.
Definition representation_of (b : N) : representation :=
  if N.land b 128 =? 128 then RIndexed
  else if N.land b 64 =? 64 then RIncremental
  else if N.land b 32 =? 32 then RSizeUpdate
  else if N.land b 16 =? 16 then RNever
  else RWithout.

(** decoder.rs:120-170 one round of the loop: the table afterwards, the header handed to the callback
    and the number of octets consumed. *)
Definition decode_one (t : hindex) (buf : bytes) : res (hindex * option field * N) :=
  match representation_of (hd 0 buf) with
  | RIndexed => ' (f, k) <- decode_indexed t (hd 0 buf) ;; Ok (t, Some f, k)
  | RIncremental =>
    ' (f, k) <- decode_literal t buf true ;;
    t' <- add_header t f ;;
    Ok (t', Some f, k)
  | RWithout | RNever => ' (f, k) <- decode_literal t buf false ;; Ok (t, Some f, k)
  | RSizeUpdate => Ok (t, None, 0)
  end.

(** decoder.rs:115-175 decode_with_cb, 107-113 decode: the table afterwards and the header list.  A
    round that consumes nothing leaves everything as it was, so the loop never ends: with fuel one
    more than the number of octets, running out of it means exactly that.  (An error in the middle of
    add_header's eviction, which never happens, is reported with the table before it.) *)
Fixpoint decode_loop (fuel : nat) (t : hindex) (buf : bytes) : hindex * res (list field) :=
  match fuel with
  | O => (t, Diverge)
  | S f =>
    match buf with
    | [] => (t, Ok [])
    | _ =>
      match decode_one t buf with
      | Ok (t', o, k) =>
        let '(t2, r) := decode_loop f t' (skipn (N.to_nat k) buf) in
        (t2, l <- r ;; Ok (match o with Some h => h :: l | None => l end))
      | Err e => (t, Err e)
      | Panic => (t, Panic)
      | Diverge => (t, Diverge)
      end
    end
  end.
Definition decode_headers (t : hindex) (buf : bytes) : hindex * res (list field) :=
  decode_loop (S (length buf)) t buf.
