(** What the writers produce, for every object that a caller can hand them (C107): the octets and, for HPACK, the
    table afterwards; or the error.  Written as grammars, from the RFCs where the crate follows them. *)
From Coq Require Import Ascii String NArith Bool List.
From Verif Require Import Base M_Header M_Url M_Http1 S_Http1 S_Reason M_Ws S_Ws M_Hpack S_Huffman S_Hpack S_Near M_Frame M_H2 S_Frame.
Import ListNotations.
Local Open Scope N_scope.

(** ** HTTP/1 heads *)
Inductive request_written (q : request) : res bytes -> Prop :=
| rqw_method : q_method q = MNone -> request_written q (Err (ESerialize "method"))
| rqw_version : q_method q <> MNone -> q_version q = VNone -> request_written q (Err (ESerialize "version"))
| rqw_head : q_method q <> MNone -> q_version q <> VNone ->
    request_written q (Ok (request_text (method_str (q_method q)) (u_path (q_url q)) (version_str (q_version q)) (q_header q))).
(** The phrases written: the registered ones, but none for 103 and 425 and another one for 203 (C61). *)
Definition phrase (c : N) (t : bytes) : Prop :=
  (c = 203 /\ t = str "Non Authoritative Information") \/ (~ In c [103; 203; 425] /\ registered c t).
Inductive response_written (p : response) : res bytes -> Prop :=
| rsw_version : p_version p = VNone -> response_written p (Err (ESerialize "version"))
| rsw_status : p_version p <> VNone -> (forall s, ~ phrase (p_status p) s) ->
    response_written p (Err (EHttp InvalidStatusCode))
| rsw_head s : p_version p <> VNone -> phrase (p_status p) s ->
    response_written p (Ok (response_text (version_str (p_version p)) (status_str (p_status p)) s (p_header p))).

(** ** WebSocket frames.  The length announced is the one that the object claims, the payload is what it writes. *)
Definition keyed (key : option mkey) (d : bytes) : bytes :=
  match key with Some (a, b, c, e) => spec_mask a b c e d | None => d end.
Inductive ws_written (d : dfable) (key : option mkey) : res bytes -> Prop :=
| wsw_opcode : 15 < df_opcode d -> ws_written d key (Err (EWs (DataFrameError "Invalid data frame opcode")))
| wsw_control : 8 <= df_opcode d <= 15 -> 125 < df_size d -> ws_written d key (Err (EWs (DataFrameError "Control frame length too long")))
| wsw_frame r1 r2 r3 : df_opcode d <= 15 -> (8 <= df_opcode d -> df_size d <= 125) -> df_rsv d = (r1, r2, r3) ->
    ws_written d key (Ok (spec_header (df_last d) r1 r2 r3 (df_opcode d) key (df_size d) ++ keyed key (concat (df_chunks d)))).

(** ** HPACK *)
(** Integers without superfluous octets: the last one is not zero unless it is the only one. *)
Inductive int_tail_min : bytes -> N -> Prop :=
| tmin_last b : b < 128 -> int_tail_min [b] b
| tmin_more b l w : b < 128 -> 0 < w -> int_tail_min l w -> int_tail_min (b + 128 :: l) (b + 128 * w).
Inductive int_min (p flags : N) : bytes -> N -> Prop :=
| imin_short v : v < 2 ^ p - 1 -> int_min p flags [flags + v] v
| imin_long l w : int_tail_min l w -> int_min p flags (flags + (2 ^ p - 1) :: l) (2 ^ p - 1 + w).
(** Strings are always Huffman coded, also when that makes them longer. *)
Inductive str_written (s : bytes) : bytes -> Prop :=
| strw h c : bytes_ok c -> huff_coded c s -> int_min 7 128 h (blen c) -> str_written s (h ++ c).

(** The names that a table search takes for one another: octets that are equal or 32 apart. *)
Definition alike (a b : bytes) : Prop := Forall2 (fun x y => x = y \/ (x + 32) mod 256 = y \/ (y + 32) mod 256 = x) a b.
Definition held (f e : hfield) : Prop := alike (fst e) (fst f) /\ snd e = snd f.
Definition lower_name (n : bytes) : bytes := map lower_ascii n.
Definition static_at (i : N) (n v : bytes) : Prop := 1 <= i /\ nth_error code_static (N.to_nat (i - 1)) = Some (n, v).

(** One field: [field_written max dyn f l dyn']. *)
Inductive field_written (max : N) (dyn : list hfield) (f : hfield) : bytes -> list hfield -> Prop :=
(** an entry of the static table: its index, one octet *)
| fw_entry i : static_at i (lower_name (fst f)) (snd f) -> field_written max dyn f [128 + i] dyn
(** a name of the static table that stands there with an empty value: the index of that entry and the value *)
| fw_name i lv : (forall j, ~ static_at j (lower_name (fst f)) (snd f)) -> static_at i (lower_name (fst f)) [] ->
    str_written (snd f) lv -> field_written max dyn f (64 + i :: lv) (rfc_add max dyn f)
(** the names that stand there only with other values: never an index, also when the dynamic table has the field *)
| fw_valued i v ln lv : (forall j, ~ static_at j (lower_name (fst f)) (snd f)) -> (forall j, ~ static_at j (lower_name (fst f)) []) ->
    static_at i (lower_name (fst f)) v -> str_written (lower_name (fst f)) ln -> str_written (snd f) lv ->
    field_written max dyn f (64 :: ln ++ lv) (rfc_add max dyn f)
(** another name: the index of the newest entry with such a name and this value *)
| fw_known j e l : (forall i v, ~ static_at i (lower_name (fst f)) v) -> nth_error dyn j = Some e -> held f e ->
    (forall e', In e' (firstn j dyn) -> ~ held f e') -> int_min 7 128 l (62 + N.of_nat j) -> field_written max dyn f l dyn
(** or name and value *)
| fw_new ln lv : (forall i v, ~ static_at i (lower_name (fst f)) v) -> (forall e, In e dyn -> ~ held f e) ->
    str_written (lower_name (fst f)) ln -> str_written (snd f) lv ->
    field_written max dyn f (64 :: ln ++ lv) (rfc_add max dyn f).

(** Several fields in a row. *)
Inductive fields_written (max : N) : list hfield -> list hfield -> bytes -> list hfield -> Prop :=
| fsw_nil dyn : fields_written max dyn [] [] dyn
| fsw_cons dyn f fs l d1 ls d2 : field_written max dyn f l d1 -> fields_written max d1 fs ls d2 -> fields_written max dyn (f :: fs) (l ++ ls) d2.

(** Cut into the pieces of a header block: a new piece begins where the text of the field, not its code, would
    make the piece longer than [room]. *)
Inductive pieces (room max : N) : list hfield -> list hfield -> bytes -> list bytes -> list hfield -> Prop :=
| pc_end dyn cur : pieces room max dyn [] cur [cur] dyn
| pc_stay dyn f fs cur l d1 cs d2 : blen (fst f) + blen (snd f) + blen cur <= room -> field_written max dyn f l d1 ->
    pieces room max d1 fs (cur ++ l) cs d2 -> pieces room max dyn (f :: fs) cur cs d2
| pc_next dyn f fs cur l d1 cs d2 : room < blen (fst f) + blen (snd f) + blen cur -> field_written max dyn f l d1 ->
    pieces room max d1 fs l cs d2 -> pieces room max dyn (f :: fs) cur (cur :: cs) d2.

(** ** HTTP/2 frames *)
(** A frame whose length field has the low 24 bits of the length. *)
Definition framed (ty fl id : N) (p : bytes) : bytes := header_octets (blen p mod 16777216) ty fl id ++ p.
(** HEADERS and CONTINUATION; the flags asked for, and END_HEADERS, are on the last frame only. *)
Fixpoint tails_framed (fl id : N) (cs : list bytes) : bytes :=
  match cs with
  | [] => []
  | [c] => framed 9 fl id c
  | c :: r => framed 9 0 id c ++ tails_framed fl id r
  end.
Definition block_framed (fl id : N) (cs : list bytes) : bytes :=
  match cs with
  | [] => []
  | [c] => framed 1 fl id c
  | c :: r => framed 1 0 id c ++ tails_framed fl id r
  end.
Definition end_headers (fl : N) : N := N.setbit fl 2.
Definition no_end_stream (fl : N) : N := N.clearbit fl 0.

(** Taking a field out of a header map. *)
Inductive taken (n : bytes) : list hfield -> option bytes -> list hfield -> Prop :=
| tk_none h : (forall e, In e h -> ~ alike (fst e) n) -> taken n h None h
| tk_some h1 e h2 : (forall e', In e' h1 -> ~ alike (fst e') n) -> alike (fst e) n -> taken n (h1 ++ e :: h2) (Some (snd e)) (h1 ++ h2).
(** The pseudo fields of a promise: those of the map, in the order of [ns], and what remains of the map. *)
Inductive pseudo_taken : list string -> list hfield -> list hfield -> list hfield -> Prop :=
| pt_nil h : pseudo_taken [] h [] h
| pt_none n ns h h1 fs h2 : taken (str n) h None h1 -> pseudo_taken ns h1 fs h2 -> pseudo_taken (n :: ns) h fs h2
| pt_some n ns h v h1 fs h2 : taken (str n) h (Some v) h1 -> pseudo_taken ns h1 fs h2 -> pseudo_taken (n :: ns) h ((str n, v) :: fs) h2.

(** [frame_written room max dyn f b dyn']. *)
Inductive frame_written (room max : N) (dyn : list hfield) : frame -> bytes -> list hfield -> Prop :=
| frw_data d cs c : da_data d = concat cs ++ c -> (0 < room \/ cs = []) -> Forall (fun x => blen x = room) cs -> blen c <= room ->
    (da_data d <> [] -> c <> []) ->
    frame_written room max dyn (FData d) (concat (map (framed 0 (no_end_stream (da_flags d)) (da_id d)) cs) ++ framed 0 (da_flags d) (da_id d) c) dyn
| frw_headers h cs dyn' : pieces room max dyn (hf_fields h) [] cs dyn' ->
    frame_written room max dyn (FHeaders h) (block_framed (end_headers (hf_flags h)) (hf_id h) cs) dyn'
(** five octets of payload behind a header that announces none; the exclusive bit is lost *)
| frw_priority p :
    frame_written room max dyn (FPriority p) (header_octets 0 2 0 (pr_id p) ++ octets4 (dp_id (pr_dep p)) ++ [dp_weight (pr_dep p)]) dyn
(** the pseudo fields in the PUSH_PROMISE frame, all others in a header block of the promised stream *)
| frw_push p fs h b d1 cs dyn' : pseudo_taken [":method"; ":authority"; ":scheme"; ":path"]%string (parts_encode_header (pp_parts p) (pp_fields p)) fs h ->
    fields_written max dyn fs b d1 -> pieces room max d1 h [] cs dyn' ->
    frame_written room max dyn (FPushPromise p)
      (framed 5 (end_headers (pp_flags p)) (pp_id p) (octets4 (pp_promised p) ++ b) ++ block_framed (end_headers (pp_flags p)) (pp_promised p) cs) dyn'
| frw_settings s :
    frame_written room max dyn (FSettings s) (framed 4 (st_flags s) 0 (concat (map entry_octets (entries_of s)))) dyn
| frw_ping p : frame_written room max dyn (FPing p) (framed 6 (if pg_ack p then 1 else 0) 0 (pg_payload p)) dyn
| frw_goaway g : frame_written room max dyn (FGoAway g) (framed 7 0 0 (octets4 (ga_last g) ++ octets4 (ga_code g) ++ ga_debug g)) dyn
| frw_window w : frame_written room max dyn (FWindowUpdate w) (framed 8 0 (wu_id w) (octets4 (wu_inc w))) dyn
| frw_reset r : frame_written room max dyn (FReset r) (framed 3 0 (rs_id r) (octets4 (rs_code r))) dyn.

(** The values that the types of the fields can hold: octets and 32-bit numbers.  Debug data of 4 GiB overflows the
    32-bit length of GOAWAY (a panic with overflow checks, not modelled); the same holds of the pseudo fields of a
    promise. *)
Definition u32 (v : N) : Prop := v < 4294967296.
Definition field_octets (f : hfield) : Prop := bytes_ok (fst f) /\ bytes_ok (snd f).
Definition parts_octets (p : parts) : Prop :=
  (forall m, pt_method p = Some m -> bytes_ok (method_str m)) /\ (forall s, pt_scheme p = Some s -> bytes_ok (scheme_str s)) /\
  (forall a, pt_authority p = Some a -> bytes_ok a) /\ (forall a, pt_path p = Some a -> bytes_ok a) /\
  (forall c, pt_status p = Some c -> 100 <= c <= 999).
Definition frame_typed (f : frame) : Prop :=
  match f with
  | FData d => u32 (da_id d)
  | FHeaders h => u32 (hf_id h) /\ Forall field_octets (hf_fields h)
  | FPriority p => u32 (pr_id p) /\ u32 (dp_id (pr_dep p))
  | FPushPromise p => u32 (pp_id p) /\ u32 (pp_promised p) /\ Forall field_octets (pp_fields p) /\ parts_octets (pp_parts p)
  | FSettings s => Forall (fun e => u32 (snd e)) (entries_of s)
  | FPing p => True
  | FGoAway g => u32 (ga_last g) /\ u32 (ga_code g) /\ u32 (8 + blen (ga_debug g))
  | FWindowUpdate w => u32 (wu_id w) /\ u32 (wu_inc w)
  | FReset r => u32 (rs_id r) /\ u32 (rs_code r)
  end.
(** A table: its entries, their size and the bound. *)
Definition table_of (max : N) (dyn : list hfield) : hindex := mkIdx dyn (total_size dyn) max.
Definition table_typed (max : N) (dyn : list hfield) : Prop := total_size dyn <= max /\ Forall field_octets dyn.
