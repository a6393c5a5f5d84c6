(** Common vocabulary of the model: bytes, results and errors, buffers,
    big-endian integers, UTF-8.

    Simplifications (also recorded in DESIGN.md):
    - a Rust [u8] is an [N]; theorems about real data assume [bytes_ok];
    - a buffer ([Bt]/[BtMut]/[Binary]/[BinaryMut]/[BinaryRef] of the external
      crate [algorithm], whose source is not part of /repo) is the list of the
      bytes that remain to be read, or that have been written so far. *)
From Coq Require Import Ascii String NArith ZArith Lia Bool List.
Import ListNotations.
Local Open Scope N_scope.

Definition bytes := list N.

Definition byte_ok (b : N) : Prop := b < 256.
Definition bytes_ok (l : bytes) : Prop := Forall byte_ok l.

(** The bytes of an ASCII string literal. *)
Definition str (s : string) : bytes := map N_of_ascii (list_ascii_of_string s).

(** Byte-string equality ([==] on slices). *)
Fixpoint beq (a b : bytes) : bool :=
  match a, b with
  | [], [] => true
  | x :: a', y :: b' => (x =? y) && beq a' b'
  | _, _ => false
  end.

(** Length of a byte string as an [N] (Rust [usize]). *)
Definition blen (l : bytes) : N := N.of_nat (length l).

(** ** Errors *)

(** src/http/error.rs 14-40: enum HttpError. *)
Inductive http_err :=
| BufTooShort | HeaderNameErr | HeaderValueErr | NewLine | StatusErr | Token | VersionErr
| MethodErr | Partial | InvalidStatusCode | SchemeTooLong.

(** src/url/error.rs: enum UrlError. *)
Inductive url_err := UrlInvalid | UrlCodeInvalid.

(** src/http/http2/hpack/decoder.rs 57-89 and huffman.rs: decoder errors. *)
Inductive int_dec_err := TooManyOctets | ValueTooLarge | NotEnoughOctetsI | InvalidPrefix.
Inductive huff_err := PaddingTooLarge | InvalidPadding | EOSInString.
Inductive str_dec_err := NotEnoughOctetsS | HuffErr (e : huff_err).
Inductive dec_err :=
| HeaderIndexOutOfBounds | IntegerDecodingError (e : int_dec_err)
| StringDecodingError (e : str_dec_err) | InvalidMaxDynamicSize.

(** src/http/http2/error.rs: enum Http2Error. *)
Inductive h2_err :=
| DecoderErr (e : dec_err) | HuffmanErr (e : huff_err) | Short | BadFlag (b : N) | BadKind (b : N)
| TooMuchPadding (b : N) | PayloadLengthTooShort | PartialSettingLength | InvalidPayloadLength
| InvalidStreamId | InvalidSettingValue | BadFrameSize | InvalidWindowUpdateValue
| InvalidDependencyId | MalformedMessage | InvalidRequesetUrl.

(** src/ws/error.rs: enum WsError. *)
Inductive ws_err := DataFrameError (s : string) | ProtocolError (s : string) | NoDataAvailable.

(** std::io::ErrorKind values that the code distinguishes. *)
Inductive io_kind := UnexpectedEof | InvalidData | OtherIo.

(** src/error.rs 17-27: enum WebError. *)
Inductive werr :=
| EHttp (e : http_err) | EHttp2 (e : h2_err) | EWs (e : ws_err) | EUrl (e : url_err)
| EInto | EExtension (s : string) | ESerialize (s : string) | EIo (k : io_kind).

(** src/error.rs 45-50: WebError::is_partial. *)
Definition is_partial (e : werr) : bool :=
  match e with EHttp Partial => true | _ => false end.

(** ** Results: WebResult<T> plus the two ways of not returning. *)
Inductive res (A : Type) : Type :=
| Ok (x : A)
| Err (e : werr)
| Panic            (* unwrap/expect/assert/index/overflow panic *)
| Diverge.         (* the loop never ends *)
Arguments Ok {A} x.
Arguments Err {A} e.
Arguments Panic {A}.
Arguments Diverge {A}.

(** The [?] operator. *)
Definition bind {A B} (m : res A) (f : A -> res B) : res B :=
  match m with
  | Ok x => f x
  | Err e => Err e
  | Panic => Panic
  | Diverge => Diverge
  end.

Notation "x <- c1 ;; c2" := (bind c1 (fun x => c2))
  (at level 61, c1 at next level, right associativity).
Notation "' pat <- c1 ;; c2" := (bind c1 (fun x => match x with pat => c2 end))
  (at level 61, pat pattern, c1 at next level, right associativity).

Definition partial {A} : res A := Err (EHttp Partial).

(** A parser consumes a prefix of the buffer and returns the rest. *)
Definition parser (A : Type) := bytes -> res (A * bytes).

(** ** Big-endian integers *)

(** [n] octets of [v], most significant first ([put_u16], [put_u32], ...). *)
Fixpoint be_enc (n : nat) (v : N) : bytes :=
  match n with
  | O => []
  | S k => (v / 256 ^ N.of_nat k) mod 256 :: be_enc k v
  end.

(** Value of a big-endian octet string ([get_u16], [get_u32], ...). *)
Fixpoint be_dec_acc (acc : N) (l : bytes) : N :=
  match l with
  | [] => acc
  | b :: l' => be_dec_acc (acc * 256 + b) l'
  end.
Definition be_dec (l : bytes) : N := be_dec_acc 0 l.

(** Split off [n] bytes if there are that many. *)
Definition take_n (n : nat) (l : bytes) : option (bytes * bytes) :=
  if Nat.leb n (length l) then Some (firstn n l, skipn n l) else None.

(** Same with a machine-integer count (Rust [usize]/[u64]). *)
Definition take_N (n : N) (l : bytes) : option (bytes * bytes) :=
  if n <=? blen l then Some (firstn (N.to_nat n) l, skipn (N.to_nat n) l) else None.

(** [try_get_u8/u16/u64] of the buffer crate: an I/O error when the buffer is too short. *)
Definition try_get (n : nat) (l : bytes) : res (N * bytes) :=
  match take_n n l with
  | Some (a, r) => Ok (be_dec a, r)
  | None => Err (EIo UnexpectedEof)
  end.

(** ** UTF-8 (std::str::from_utf8, String::from_utf8, from_utf8_lossy) *)

Definition is_cont (b : N) : bool := (128 <=? b) && (b <? 192).
(** Admissible second byte of a three/four byte sequence, by its first byte
    (the table of RFC 3629 section 4, which is what std implements). *)
Definition snd3_ok (b0 b1 : N) : bool :=
  if b0 =? 224 then (160 <=? b1) && (b1 <? 192)
  else if b0 =? 237 then (128 <=? b1) && (b1 <? 160)
  else is_cont b1.
Definition snd4_ok (b0 b1 : N) : bool :=
  if b0 =? 240 then (144 <=? b1) && (b1 <? 192)
  else if b0 =? 244 then (128 <=? b1) && (b1 <? 144)
  else is_cont b1.
Definition is_lead2 (b : N) : bool := (194 <=? b) && (b <? 224).
Definition is_lead3 (b : N) : bool := (224 <=? b) && (b <? 240).
Definition is_lead4 (b : N) : bool := (240 <=? b) && (b <? 245).

Fixpoint utf8_valid (l : bytes) : bool :=
  match l with
  | [] => true
  | b0 :: l1 =>
    if b0 <? 128 then utf8_valid l1
    else if is_lead2 b0 then
      match l1 with b1 :: l2 => is_cont b1 && utf8_valid l2 | _ => false end
    else if is_lead3 b0 then
      match l1 with
      | b1 :: b2 :: l3 => snd3_ok b0 b1 && is_cont b2 && utf8_valid l3
      | _ => false
      end
    else if is_lead4 b0 then
      match l1 with
      | b1 :: b2 :: b3 :: l4 => snd4_ok b0 b1 && is_cont b2 && is_cont b3 && utf8_valid l4
      | _ => false
      end
    else false
  end.

(** U+FFFD *)
Definition repl : bytes := [239; 191; 189].

(** String::from_utf8_lossy: every maximal invalid piece becomes U+FFFD. *)
Fixpoint utf8_lossy (l : bytes) : bytes :=
  match l with
  | [] => []
  | b0 :: l1 =>
    if b0 <? 128 then b0 :: utf8_lossy l1
    else if is_lead2 b0 then
      match l1 with
      | b1 :: l2 => if is_cont b1 then b0 :: b1 :: utf8_lossy l2 else repl ++ utf8_lossy l1
      | [] => repl
      end
    else if is_lead3 b0 then
      match l1 with
      | b1 :: l2 =>
        if snd3_ok b0 b1 then
          match l2 with
          | b2 :: l3 => if is_cont b2 then b0 :: b1 :: b2 :: utf8_lossy l3 else repl ++ utf8_lossy l2
          | [] => repl
          end
        else repl ++ utf8_lossy l1
      | [] => repl
      end
    else if is_lead4 b0 then
      match l1 with
      | b1 :: l2 =>
        if snd4_ok b0 b1 then
          match l2 with
          | b2 :: l3 =>
            if is_cont b2 then
              match l3 with
              | b3 :: l4 =>
                if is_cont b3 then b0 :: b1 :: b2 :: b3 :: utf8_lossy l4 else repl ++ utf8_lossy l3
              | [] => repl
              end
            else repl ++ utf8_lossy l2
          | [] => repl
          end
        else repl ++ utf8_lossy l1
      | [] => repl
      end
    else repl ++ utf8_lossy l1
  end.
