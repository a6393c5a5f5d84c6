(** Model of src/http/name.rs, value.rs and header.rs. A HeaderName or a
    HeaderValue is the list of its bytes ([as_bytes]). *)
From Coq Require Import Ascii String NArith ZArith Bool List.
From Verif Require Import Base M_Std M_Helper.
Import ListNotations.
Local Open Scope N_scope.

(** ** name.rs *)
(** 46-52: PartialEq for HeaderName (and 28-44, with byte strings). *)
Definition name_eq (a b : bytes) : bool := eq_bytes_ic a b.
(** 56-71: the bytes fed to the Hasher. *)
Definition name_hash_input (a : bytes) : bytes :=
  map (fun b => if (65 <=? b) && (b <=? 90) then b + 32 else b) a.
(** 112-117: is_spec. *)
Definition name_is_spec (a : bytes) : bool := match a with b :: _ => b =? 58 | [] => false end.

(** ** value.rs *)
(** 51-56: as_string ([None] when not UTF-8). *)
Definition value_as_string (v : bytes) : option bytes := if utf8_valid v then Some v else None.
(** 59-71: push. *)
Definition value_push (v w : bytes) : bytes := v ++ 59 :: w.
(** 110-126: TryInto<usize> for the Value representation. [overflowing_mul]
    is checked, the addition is not (Panic on overflow). *)
Fixpoint value_usize_loop (r : N) (l : bytes) : res N :=
  match l with
  | [] => Ok r
  | b :: l' =>
    if is_digit b then
      if usize_max1 <=? r * 10 then Err EInto
      else if usize_max1 <=? r * 10 + (b - 48) then Panic
      else value_usize_loop (r * 10 + (b - 48)) l'
    else Err EInto
  end.
Definition value_usize (v : bytes) : res N := value_usize_loop 0 v.
(** 135-162: TryInto<isize> for the Value representation. *)
Fixpoint value_isize_loop (r : N) (neg : bool) (l : bytes) : res Z :=
  match l with
  | [] => Ok (if neg then (- Z.of_N r)%Z else Z.of_N r)
  | b :: l' =>
    if is_digit b then
      if isize_max1 <=? r * 10 then Err EInto
      else if isize_max1 <=? r * 10 + (b - 48) then Panic
      else value_isize_loop (r * 10 + (b - 48)) neg l'
    else if (b =? 45) && (r =? 0) then value_isize_loop r true l'
    else Err EInto
  end.
Definition value_isize (v : bytes) : res Z := value_isize_loop 0 false v.
(** 109, 134: the Stand representation uses str::parse (the ParseIntError
    becomes Extension("parse int error"), error.rs). *)
Definition value_usize_stand (v : bytes) : res N :=
  match parse_uint usize_max1 v with Some n => Ok n | None => Err (EExtension "parse int error") end.
Definition value_isize_stand (v : bytes) : res Z :=
  match parse_sint isize_max1 v with Some z => Ok z | None => Err (EExtension "parse int error") end.
(** 192-204: TryFrom<usize>, TryFrom<isize>. *)
Definition value_of_usize (n : N) : bytes := dec_print n.
Definition value_of_isize (z : Z) : bytes := dec_print_z z.

(** ** header.rs *)
(** 24-27: struct HeaderMap, its [headers] field. ([systems] is modelled as a
    separate table below.) *)
Definition headers := list (bytes * bytes).

(** 46-67: push. The loop over [iter_mut] updates the first match. *)
Fixpoint hm_push (h : headers) (n v : bytes) : headers :=
  match h with
  | [] => [(n, v)]
  | (n', v') :: h' => if name_eq n' n then (n', value_push v' v) :: h' else (n', v') :: hm_push h' n v
  end.
(** 69-90: insert (the name of the first match is kept). *)
Fixpoint hm_insert (h : headers) (n v : bytes) : headers :=
  match h with
  | [] => [(n, v)]
  | (n', v') :: h' => if name_eq n' n then (n', v) :: h' else (n', v') :: hm_insert h' n v
  end.
(** 141-149: get_option_value. *)
Fixpoint hm_get (h : headers) (n : bytes) : option bytes :=
  match h with
  | [] => None
  | (n', v') :: h' => if name_eq n' n then Some v' else hm_get h' n
  end.
(** 92-100: remove. *)
Fixpoint hm_remove (h : headers) (n : bytes) : headers * option bytes :=
  match h with
  | [] => ([], None)
  | (n', v') :: h' =>
    if name_eq n' n then (h', Some v')
    else let '(r, o) := hm_remove h' n in ((n', v') :: r, o)
  end.
(** 102-104: clear. *)
Definition hm_clear (h : headers) : headers := [].
(** 106-114: contains. *)
Definition hm_contains (h : headers) (n : bytes) : bool :=
  match hm_get h n with Some _ => true | None => false end.
(** 116-124: get_value; unreachable!() when absent. *)
Definition hm_get_value (h : headers) (n : bytes) : res bytes :=
  match hm_get h n with Some v => Ok v | None => Panic end.
(** 126-139: get_mut_value followed by a write of [f old]. *)
Fixpoint hm_update (h : headers) (n : bytes) (f : bytes -> bytes) : res headers :=
  match h with
  | [] => Panic
  | (n', v') :: h' =>
    if name_eq n' n then Ok ((n', f v') :: h')
    else r <- hm_update h' n f ;; Ok ((n', v') :: r)
  end.
(** 311-318: Index; 321-331: IndexMut followed by a write of [f old]. *)
Definition hm_index := hm_get_value.
Definition hm_index_mut (h : headers) (n : bytes) (f : bytes -> bytes) : res headers :=
  if hm_contains h n then hm_update h n f else hm_update (hm_insert h n []) n f.
(** 151-159: get_str_value. *)
Definition hm_get_str (h : headers) (n : bytes) : option bytes :=
  match hm_get h n with Some v => value_as_string v | None => None end.
(** 161-169, 171-179: is_contains, is_equal. *)
Definition hm_is_contains (h : headers) (n w : bytes) : bool :=
  match hm_get h n with Some v => contains_bytes v w | None => false end.
Definition hm_is_equal (h : headers) (n w : bytes) : bool :=
  match hm_get h n with Some v => beq v w | None => false end.

(** 181-196: get_host. [splitn(1, ':')] returns the whole string as its only
    element, so the ":authority" value is returned whole in both branches. *)
Definition hm_get_host (h : headers) : option bytes :=
  match hm_get h (str "host") with
  | Some v => Some (utf8_lossy v)
  | None => match hm_get h (str ":authority") with
            | Some v => Some (utf8_lossy v)
            | None => None
            end
  end.
(** 198-220: get_referer, get_user_agent, get_cookie. *)
Definition hm_get_lossy (name : string) (h : headers) : option bytes :=
  match hm_get h (str name) with Some v => Some (utf8_lossy v) | None => None end.
Definition hm_get_referer := hm_get_lossy "referer".
Definition hm_get_user_agent := hm_get_lossy "user-agent".
Definition hm_get_cookie := hm_get_lossy "cookie".

(** 222-233: get_body_len: [try_into().unwrap_or(0)] as isize. *)
Definition hm_body_len (h : headers) : res Z :=
  match hm_get h (str "content-length") with
  | Some v => match value_isize v with
              | Ok z => Ok z
              | Err _ => Ok 0%Z
              | Panic => Panic
              | Diverge => Diverge
              end
  | None => Ok 0%Z
  end.
(** 235-249: is_keep_alive, is_chunked. *)
Definition hm_is_keep_alive (h : headers) : bool :=
  match hm_get h (str "connection") with Some v => contains_bytes v (str "Keep-Alive") | None => false end.
Definition hm_is_chunked (h : headers) : bool :=
  match hm_get h (str "transfer-encoding") with Some v => contains_bytes v (str "chunked") | None => false end.
(** 251-265: get_upgrade_protocol. *)
Definition hm_get_upgrade (h : headers) : option bytes :=
  match hm_get h (str "connection") with
  | Some v => if contains_bytes v (str "Upgrade")
              then match hm_get h (str "upgrade") with Some u => value_as_string u | None => None end
              else None
  | None => None
  end.

(** 287-297: encode. *)
Definition encode_header_line (nv : bytes * bytes) : bytes := fst nv ++ [58; 32] ++ snd nv ++ crlf.
Definition hm_encode (h : headers) : bytes := concat (map encode_header_line h) ++ crlf.

(** helper.rs 382-387: one header line. *)
Definition parse_header_line (l : bytes) : res ((bytes * bytes) * bytes) :=
  ' (name, r1) <- parse_header_name l ;;
  ' (_, r2) <- skip_spaces r1 ;;
  ' (_, r3) <- expect 58 (EHttp HeaderNameErr) r2 ;;
  ' (_, r4) <- skip_spaces r3 ;;
  ' (value, r5) <- parse_header_value r4 ;;
  ' (_, r6) <- skip_new_line r5 ;;
  Ok ((name, value), r6).

(** helper.rs 367-390: parse_header. The map is cleared first; the result pairs
    the map as it is left (also on failure) with the outcome. Every round
    consumes at least one byte, so [fuel] = number of bytes + 1 never runs out. *)
Fixpoint parse_header_loop (fuel : nat) (h : headers) (l : bytes) : headers * res bytes :=
  match fuel with
  | O => (h, Diverge)
  | S fuel' =>
    match l with
    | [] => (h, partial)
    | b :: l1 =>
      if b =? 13 then
        (h, ' (_, l2) <- expect 10 (EHttp NewLine) l1 ;; Ok l2)
      else if b =? 10 then (h, Ok l1)
      else
        match parse_header_line l with
        | Ok ((name, value), r) => parse_header_loop fuel' (hm_insert h name value) r
        | Err e => (h, Err e)
        | Panic => (h, Panic)
        | Diverge => (h, Diverge)
        end
    end
  end.
Definition parse_header (l : bytes) : headers * res bytes := parse_header_loop (S (length l)) [] l.

(** 26, 275-285: the [systems] table, a HashMap<String, String>. *)
Definition systems := list (bytes * bytes).
Fixpoint sys_insert (s : systems) (k v : bytes) : systems :=
  match s with
  | [] => [(k, v)]
  | (k', v') :: s' => if beq k' k then (k', v) :: s' else (k', v') :: sys_insert s' k v
  end.
Fixpoint sys_get (s : systems) (k : bytes) : option bytes :=
  match s with
  | [] => None
  | (k', v') :: s' => if beq k' k then Some v' else sys_get s' k
  end.
