(** Specification of the HTTP/2 frame layer (RFC 9113 sections 4.1, 6) and of base64url (RFC 4648
    section 5), used by C34-C42.  It refers to the model only for the names of its data types. *)
From Coq Require Import Ascii String NArith Bool List.
From Verif Require Import Base M_Frame S_Huffman.
Import ListNotations.
Local Open Scope N_scope.

(** Octets of numbers, written out. *)
Definition octets2 (v : N) : bytes := [v / 256; v mod 256].
Definition octets3 (v : N) : bytes := [v / 65536; v / 256 mod 256; v mod 256].
Definition octets4 (v : N) : bytes := [v / 16777216; v / 65536 mod 256; v / 256 mod 256; v mod 256].

(** RFC 9113 4.1: length (24), type (8), flags (8), reserved bit and stream identifier (1 + 31). *)
Definition header_octets (len ty fl rid : N) : bytes := octets3 len ++ [ty; fl] ++ octets4 rid.
(** A frame: its header and its payload. *)
Definition frame_octets (ty fl id : N) (payload : bytes) : bytes :=
  header_octets (blen payload) ty fl id ++ payload.

(** RFC 9113 section 6: the registered types. *)
Definition frame_types : list (N * kind) :=
  [(0, KData); (1, KHeaders); (2, KPriority); (3, KReset); (4, KSettings); (5, KPushPromise); (6, KPing);
   (7, KGoAway); (8, KWindowUpdate); (9, KContinuation)].
Definition type_means (ty : N) (k : kind) : Prop :=
  In (ty, k) frame_types \/ ((forall k', ~ In (ty, k') frame_types) /\ k = KUnregistered).

(** The flags that RFC 9113 defines: END_STREAM/ACK 1, END_HEADERS 4, PADDED 8, PRIORITY 32. *)
Definition bit (b : bool) (v : N) : N := if b then v else 0.
Definition flags_of (end_stream end_headers padded prio : bool) : N :=
  bit end_stream 1 + bit end_headers 4 + bit padded 8 + bit prio 32.
Definition defined_flags (f : N) : Prop := exists a b c d, f = flags_of a b c d.

(** ** SETTINGS (6.5) *)
Definition entry_octets (e : N * N) : bytes := octets2 (fst e) ++ octets4 (snd e).
Definition entry_range (e : N * N) : Prop := fst e < 65536 /\ snd e < 4294967296.
Definition entry_legal (e : N * N) : Prop :=
  match fst e with
  | 2 => snd e <= 1
  | 4 => snd e <= 2147483647
  | 5 => 16384 <= snd e <= 16777215
  | 8 => snd e <= 1
  | _ => True
  end.
(** The value in force after processing the entries in order. *)
Fixpoint last_of (id : N) (es : list (N * N)) : option N :=
  match es with
  | [] => None
  | (i, v) :: r => match last_of id r with Some w => Some w | None => if i =? id then Some v else None end
  end.
Definition settings_of (es : list (N * N)) : settings :=
  mkSettings 0 (last_of 1 es) (last_of 2 es) (last_of 3 es) (last_of 4 es) (last_of 5 es) (last_of 6 es) (last_of 8 es).
(** The entries of a settings value: the present ones. *)
Definition present (id : N) (o : option N) : list (N * N) := match o with Some v => [(id, v)] | None => [] end.
Definition entries_of (s : settings) : list (N * N) :=
  present 1 (st_header_table_size s) ++ present 2 (st_enable_push s) ++ present 3 (st_max_concurrent_streams s) ++
  present 4 (st_initial_window_size s) ++ present 5 (st_max_frame_size s) ++ present 6 (st_max_header_list_size s) ++
  present 8 (st_enable_connect_protocol s).
Definition legal_settings (s : settings) : Prop :=
  st_flags s = 0 /\ Forall entry_range (entries_of s) /\ Forall entry_legal (entries_of s).

(** ** base64url without padding *)
Definition b64_alphabet : bytes := str "ABCDEFGHIJKLMNOPQRSTUVWXYZabcdefghijklmnopqrstuvwxyz0123456789-_".
(** [text] spells [data]: its digits' bits are the data's bits and fewer than six zeros. *)
Definition base64url (data text : bytes) : Prop :=
  exists digits pad, Forall2 (fun d c => nth_error b64_alphabet (N.to_nat d) = Some c) digits text /\
    Forall (fun d => d < 64) digits /\ (pad < 6)%nat /\
    flat_map (num_bits 6) digits = text_bits data ++ repeat false pad.
