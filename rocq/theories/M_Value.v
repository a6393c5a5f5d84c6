(** Model of src/http/name.rs, value.rs and header.rs with the representation of names and values kept: a literal
    (Stand) or an owned string (Value).  M_Header models the same functions on the bytes alone. *)
From Coq Require Import Ascii String NArith ZArith Bool List.
From Verif Require Import Base M_Std M_Helper M_Header.
Import ListNotations.
Local Open Scope N_scope.

(** name.rs:21-25 HeaderName, value.rs:19-23 HeaderValue.  A &'static str or a String is its bytes. *)
Inductive hname := NStand (s : bytes) | NValue (s : bytes).
Inductive hvalue := VStand (s : bytes) | VValue (l : bytes).

(** ** value.rs *)
(** 26-36: from_static, from_bytes, from_cow; 177-205: TryFrom<&'static str>, <String>, <usize>, <isize> *)
Definition hv_from_static (s : bytes) : hvalue := VStand s.
Definition hv_from_bytes (l : bytes) : hvalue := VValue l.
Definition hv_from_cow (l : bytes) : hvalue := VValue l.
Definition hv_of_str (s : bytes) : hvalue := VStand s.
Definition hv_of_string (s : bytes) : hvalue := VValue s.
Definition hv_of_usize (n : N) : hvalue := VValue (dec_print n).
Definition hv_of_isize (z : Z) : hvalue := VValue (dec_print_z z).
(** 38-43: bytes_len; 45-50: as_bytes *)
Definition hv_bytes_len (v : hvalue) : N := match v with VStand s => blen s | VValue l => blen l end.
Definition hv_as_bytes (v : hvalue) : bytes := match v with VStand s => s | VValue l => l end.
(** 52-57: as_string *)
Definition hv_as_string (v : hvalue) : option bytes :=
  match v with VStand s => Some s | VValue l => if utf8_valid l then Some l else None end.
(** 59-72: push: a literal becomes an owned value first *)
Definition hv_push (v w : hvalue) : hvalue :=
  let v1 := match v with VStand s => VValue s | VValue l => VValue l end in
  match v1 with
  | VValue l => VValue ((l ++ [59]) ++ hv_as_bytes w)
  | VStand s => VStand s
  end.
(** 73-78: encode; 80-82: contains *)
Definition hv_encode (v : hvalue) : bytes := match v with VStand s => s | VValue l => l end.
Definition hv_contains (v : hvalue) (w : bytes) : bool := contains_bytes (hv_as_bytes v) w.
(** 85-96: hash: what the Hasher is fed; [u8] and Vec<u8> both write their length and then their bytes (std) *)
Inductive hash_write := HUsize (n : N) | HBytes (l : bytes) | HU8 (b : N).
Definition slice_hash (l : bytes) : list hash_write := [HUsize (blen l); HBytes l].
Definition hv_hash (v : hvalue) : list hash_write :=
  match v with VStand s => slice_hash s | VValue l => slice_hash l end.
(** 98-105: Display; 166-175: TryInto<String> *)
Definition hv_display (v : hvalue) : bytes := match v with VStand s => s | VValue l => utf8_lossy l end.
Definition hv_to_string (v : hvalue) : res bytes := match v with VStand s => Ok s | VValue l => Ok (utf8_lossy l) end.
(** 108-131: TryInto<usize>; 133-164: TryInto<isize> *)
Definition hv_usize (v : hvalue) : res N := match v with VStand s => value_usize_stand s | VValue l => value_usize l end.
Definition hv_isize (v : hvalue) : res Z := match v with VStand s => value_isize_stand s | VValue l => value_isize l end.
(** 208-217: ==; 219-226, 243-247: with a &str; 228-241: with bytes *)
Definition hv_eq (v w : hvalue) : bool :=
  match v, w with
  | VStand l0, VStand r0 => beq l0 r0
  | VValue l0, VValue r0 => beq l0 r0
  | VStand l0, VValue r0 => beq l0 r0
  | VValue l0, VStand r0 => beq l0 r0
  end.
Definition hv_eq_str (v : hvalue) (s : bytes) : bool := match v with VStand l => beq l s | VValue l => beq l s end.
Definition hv_eq_bytes (v : hvalue) (s : bytes) : bool := match v with VStand l => beq l s | VValue l => beq l s end.

(** ** name.rs *)
(** 126-131: as_bytes; 119-124: name; 104-109: bytes_len; 133-138: encode; 147-151: Display; 142-144: AsRef *)
Definition hn_as_bytes (n : hname) : bytes := match n with NStand s => s | NValue s => s end.
Definition hn_name (n : hname) : bytes := match n with NStand s => s | NValue s => s end.
Definition hn_bytes_len (n : hname) : N := match n with NStand s => blen s | NValue s => blen s end.
Definition hn_encode (n : hname) : bytes := match n with NStand s => s | NValue s => s end.
Definition hn_display (n : hname) : bytes := hn_name n.
(** 112-117: is_spec *)
Definition hn_is_spec (n : hname) : bool := match n with NStand s => name_is_spec s | NValue s => name_is_spec s end.
(** 27-52: == with bytes, a &str, another name *)
Definition hn_eq_bytes (n : hname) (s : bytes) : bool := eq_bytes_ic (hn_as_bytes n) s.
Definition hn_eq_str (n : hname) (s : bytes) : bool := eq_bytes_ic (hn_as_bytes n) s.
Definition hn_eq (n m : hname) : bool := eq_bytes_ic (hn_as_bytes n) (hn_as_bytes m).
(** 56-72: hash: one write_u8 for every byte *)
Definition hn_hash (n : hname) : list hash_write :=
  map (fun b => HU8 (if (65 <=? b) && (b <=? 90) then b + 32 else b)) (match n with NStand s => s | NValue s => s end).
(** 85-97: TryFrom<&'static str>, TryFrom<String>; 168-177: from_bytes for a name that is not one of the standard
    headers (a standard one gives the literal with the same bytes) *)
Definition hn_of_str (s : bytes) : hname := NStand s.
Definition hn_of_string (s : bytes) : hname := NValue s.
Definition hn_from_bytes (standard : list bytes) (s : bytes) : hname :=
  if existsb (beq s) standard then NStand s else NValue (utf8_lossy s).

(** ** header.rs: the map *)
Definition hmap := list (hname * hvalue).
(** 46-67: push; 69-90: insert *)
Fixpoint tm_push (h : hmap) (n : hname) (v : hvalue) : hmap :=
  match h with
  | [] => [(n, v)]
  | (n', v') :: h' => if hn_eq n' n then (n', hv_push v' v) :: h' else (n', v') :: tm_push h' n v
  end.
Fixpoint tm_insert (h : hmap) (n : hname) (v : hvalue) : hmap :=
  match h with
  | [] => [(n, v)]
  | (n', v') :: h' => if hn_eq n' n then (n', v) :: h' else (n', v') :: tm_insert h' n v
  end.
(** 92-100: remove *)
Fixpoint tm_remove (h : hmap) (n : bytes) : hmap * option hvalue :=
  match h with
  | [] => ([], None)
  | (n', v') :: h' => if hn_eq_bytes n' n then (h', Some v') else let '(r, o) := tm_remove h' n in ((n', v') :: r, o)
  end.
(** 141-149: get_option_value; 106-114: contains *)
Fixpoint tm_get (h : hmap) (n : bytes) : option hvalue :=
  match h with
  | [] => None
  | (n', v') :: h' => if hn_eq_bytes n' n then Some v' else tm_get h' n
  end.
Fixpoint tm_contains (h : hmap) (n : bytes) : bool :=
  match h with
  | [] => false
  | (n', _) :: h' => if hn_eq_bytes n' n then true else tm_contains h' n
  end.
(** 126-139: get_mut_value and a write of [w] through it; 321-331: IndexMut and such a write (the entry is made with
    an empty literal if there is none) *)
Fixpoint tm_set (h : hmap) (n : bytes) (w : hvalue) : res hmap :=
  match h with
  | [] => Panic
  | (n', v') :: h' => if hn_eq_bytes n' n then Ok ((n', w) :: h') else r <- tm_set h' n w ;; Ok ((n', v') :: r)
  end.
Definition tm_index_set (h : hmap) (n : bytes) (w : hvalue) : res hmap :=
  if tm_contains h n then tm_set h n w else tm_set (tm_insert h (NStand n) (VStand [])) n w.
(** 151-159: get_str_value; 161-169: is_contains; 171-179: is_equal *)
Definition tm_get_str (h : hmap) (n : bytes) : option bytes :=
  match tm_get h n with Some v => hv_as_string v | None => None end.
Definition tm_is_contains (h : hmap) (n w : bytes) : bool := match tm_get h n with Some v => hv_contains v w | None => false end.
Definition tm_is_equal (h : hmap) (n w : bytes) : bool := match tm_get h n with Some v => beq (hv_as_bytes v) w | None => false end.
(** 181-220: get_host, get_referer, get_user_agent, get_cookie *)
Definition tm_text (h : hmap) (n : bytes) : option bytes :=
  match tm_get h n with Some v => match hv_to_string v with Ok s => Some s | _ => None end | None => None end.
Definition tm_get_host (h : hmap) : option bytes :=
  match tm_get h (str "host") with
  | Some v => match hv_to_string v with Ok s => Some s | _ => None end
  | None => tm_text h (str ":authority")
  end.
(** 222-233: get_body_len *)
Definition tm_body_len (h : hmap) : res Z :=
  match tm_get h (str "content-length") with
  | Some v => match hv_isize v with Ok z => Ok z | Err _ => Ok 0%Z | Panic => Panic | Diverge => Diverge end
  | None => Ok 0%Z
  end.
(** 235-265: is_keep_alive, is_chunked, get_upgrade_protocol *)
Definition tm_is_keep_alive (h : hmap) : bool :=
  match tm_get h (str "connection") with Some v => contains_bytes (hv_as_bytes v) (str "Keep-Alive") | None => false end.
Definition tm_is_chunked (h : hmap) : bool :=
  match tm_get h (str "transfer-encoding") with Some v => contains_bytes (hv_as_bytes v) (str "chunked") | None => false end.
Definition tm_get_upgrade (h : hmap) : option bytes :=
  match tm_get h (str "connection") with
  | Some v => if contains_bytes (hv_as_bytes v) (str "Upgrade") then tm_get_str h (str "upgrade") else None
  | None => None
  end.
(** 287-297: encode; 366-376: Display *)
Definition tm_encode (h : hmap) : bytes :=
  concat (map (fun nv => hn_encode (fst nv) ++ [58; 32] ++ hv_encode (snd nv) ++ crlf) h) ++ crlf.
Definition tm_display (h : hmap) : bytes :=
  concat (map (fun nv => hn_display (fst nv) ++ [58; 32] ++ hv_display (snd nv) ++ crlf) h) ++ crlf.
(** 24 derive(PartialEq): the lists of fields are compared (the [systems] table is a second condition, left out) *)
Fixpoint tm_eq (g h : hmap) : bool :=
  match g, h with
  | [], [] => true
  | (n, v) :: g', (m, w) :: h' => hn_eq n m && hv_eq v w && tm_eq g' h'
  | _, _ => false
  end.
