(** What the frame reader of the crate accepts and what it makes of it (C98): a grammar of its own, with the
    deviations from RFC 9113 pointed out. *)
From Coq Require Import Ascii String NArith ZArith Bool List.
From Verif Require Import Base M_Header M_Url M_Http1 S_Http1 S_Http1Api M_Hpack S_Hpack S_HpackAll S_Frame M_Frame M_H2 S_Build.
Import ListNotations.
Local Open Scope N_scope.

(** The flag with this number is set: 0 ACK or END_STREAM, 3 PADDED, 5 PRIORITY. *)
Definition flag_on (fl n : N) : Prop := N.testbit fl n = true.

(** What is left of a payload when the flag PADDED is set: one octet less, which is not to exceed the length of the
    whole payload.  RFC 9113 6.1 asks for the padding to be removed as well and for the octet to be there. *)
Inductive unpadded (fl : N) : bytes -> bytes -> Prop :=
| up_plain p : ~ flag_on fl 3 -> unpadded fl p p
| up_pad n p : flag_on fl 3 -> n <= blen p + 1 -> unpadded fl (n :: p) p
| up_none : flag_on fl 3 -> unpadded fl [] [].

(** ** Fields of a header list *)
Definition pseudo_names : list bytes := map str [":authority"; ":method"; ":path"; ":scheme"; ":status"]%string.
(** The value of the last field with this very name. *)
Definition last_value (n : string) (fs : list hfield) : option bytes :=
  option_map snd (find (fun f => beq (fst f) (str n)) (rev fs)).
(** An optional part is absent without such a field, and otherwise read from its last value. *)
Definition read_last {A} (rd : bytes -> A -> Prop) (n : string) (fs : list hfield) (o : option A) : Prop :=
  match last_value n fs with
  | None => o = None
  | Some v => exists a, rd v a /\ o = Some a
  end.
(** The values: text with replacement characters, a method name, a scheme of at most 64 bytes, three digits. *)
Definition method_value (v : bytes) (m : method) : Prop := exists s, In (m, s) method_names /\ v = str s.
Definition scheme_value (v : bytes) (c : scheme) : Prop := exists s, lossy v s /\ blen s <= 64 /\ c = scheme_named s.
Definition status_value (v : bytes) (c : N) : Prop := 100 <= c <= 999 /\ v = three_digits c.
(** Every pseudo header has to be readable, not only the last one of its name. *)
Definition field_fine (f : hfield) : Prop :=
  (fst f = str ":method" -> exists m, method_value (snd f) m) /\
  (fst f = str ":scheme" -> exists c, scheme_value (snd f) c) /\
  (fst f = str ":status" -> exists c, status_value (snd f) c).
(** The pseudo headers and the other fields, later ones replacing earlier ones of the same name (C14).  RFC 9113 8.3
    has pseudo headers only once and before the other fields, no unknown ones, and keeps repeated fields. *)
Definition header_list (fs : list hfield) (hs : headers) (p : parts) : Prop :=
  Forall field_fine fs /\
  read_last lossy ":authority" fs (pt_authority p) /\ read_last method_value ":method" fs (pt_method p) /\
  read_last lossy ":path" fs (pt_path p) /\ read_last scheme_value ":scheme" fs (pt_scheme p) /\
  read_last status_value ":status" fs (pt_status p) /\
  hs = hm_insert_all [] (filter (fun f => negb (existsb (beq (fst f)) pseudo_names)) fs).

(** The five octets of a stream dependency. *)
Definition dep_octets (d : stream_dep) : bytes := octets4 ((if dp_excl d then 2147483648 else 0) + dp_id d) ++ [dp_weight d].
Definition dep_range (d : stream_dep) : Prop := dp_id d < 2147483648 /\ dp_weight d < 256.

(** ** Frames: [frame_read L t ty fl id l f t'] - with the limit [L] on header lists and the table [t], the payload
    [l] (without padding) of a frame of type [ty] with flags [fl] on stream [id] is read as [f] and leaves [t']. *)
Inductive frame_read (L : N) (t : hindex) : N -> N -> N -> bytes -> frame -> hindex -> Prop :=
| fr_data fl id l : id <> 0 ->
    frame_read L t 0 fl id l (FData (mkData id l fl)) t
| fr_headers fl id block fs dyn hs p : ~ flag_on fl 5 ->
    block_read (hi_max t) (hi_table t) block fs dyn -> total_size fs <= L -> header_list fs hs p ->
    frame_read L t 1 fl id block (FHeaders (mkHeaders id None hs p fl)) (mkIdx dyn (total_size dyn) (hi_max t))
| fr_headers_prio fl id d block fs dyn hs p : flag_on fl 5 -> dep_range d ->
    block_read (hi_max t) (hi_table t) block fs dyn -> total_size fs <= L -> header_list fs hs p ->
    frame_read L t 1 fl id (dep_octets d ++ block) (FHeaders (mkHeaders id (Some d) hs p fl)) (mkIdx dyn (total_size dyn) (hi_max t))
| fr_priority fl id d junk : dep_range d -> dp_id d <> id ->
    frame_read L t 2 fl id (dep_octets d ++ junk) (FPriority (mkPriority id d)) t
| fr_reset fl id code : code < 4294967296 ->
    frame_read L t 3 fl id (octets4 code) (FReset (mkReset id code)) t
| fr_settings fl es : ~ flag_on fl 0 -> Forall entry_range es -> Forall entry_legal es ->
    frame_read L t 4 fl 0 (concat (map entry_octets es)) (FSettings (settings_of es)) t
| fr_settings_ack fl : flag_on fl 0 ->
    frame_read L t 4 fl 0 [] (FSettings settings_ack) t
| fr_push fl id r promised junk : r <= 1 -> promised < 2147483648 ->
    frame_read L t 5 fl id (octets4 (r * 2147483648 + promised) ++ junk) (FPushPromise (mkPush id promised [] parts_default fl)) t
| fr_push_short fl id l : blen l < 4 ->
    frame_read L t 5 fl id l (FPushPromise (mkPush id 0 [] parts_default fl)) t
| fr_ping fl l : blen l = 8 ->
    frame_read L t 6 fl 0 l (FPing (mkPing (N.testbit fl 0) l)) t
| fr_goaway fl id r last code debug : r <= 1 -> last < 2147483648 -> code < 4294967296 ->
    frame_read L t 7 fl id (octets4 (r * 2147483648 + last) ++ octets4 code ++ debug) (FGoAway (mkGoAway last code debug)) t
| fr_window fl id r inc : r <= 1 -> 1 <= inc < 2147483648 ->
    frame_read L t 8 fl id (octets4 (r * 2147483648 + inc)) (FWindowUpdate (mkWin id inc)) t.

(** ** The octets of one frame, and of a sequence of frames *)
Inductive one_frame (L : N) (t : hindex) : bytes -> frame -> hindex -> Prop :=
| of_frame ty fl r id p l f t' : blen p < 16777216 -> defined_flags fl -> r <= 1 -> id < 2147483648 ->
    unpadded fl p l -> frame_read L t ty fl id l f t' ->
    one_frame L t (frame_octets ty fl (r * 2147483648 + id) p) f t'.
Inductive frames (L : N) : hindex -> bytes -> list frame -> hindex -> Prop :=
| fs_nil t : frames L t [] [] t
| fs_cons t a f t1 b fs t2 : one_frame L t a f t1 -> frames L t1 b fs t2 -> frames L t (a ++ b) (f :: fs) t2.
