(** What the WebSocket readers refuse, with the error for each input (C104). *)
From Coq Require Import Ascii String NArith ZArith Bool List.
From Verif Require Import Base S_Utf8 M_Ws S_Ws S_WsApi.
Import ListNotations.
Local Open Scope N_scope.

Definition more_data : werr := EIo UnexpectedEof.

(** The octets of a frame header in front of the masking key. *)
Definition lead (fin r1 r2 r3 : bool) (op : N) (masked : bool) (n : N) : bytes :=
  [bit fin 128 + bit r1 64 + bit r2 32 + bit r3 16 + op; bit masked 128 + spec_len7 n] ++ spec_ext n.

(** Refused headers. *)
Inductive head_bad : bytes -> werr -> Prop :=
| hb_nothing : head_bad [] more_data
| hb_one b : head_bad [b] more_data
| hb_len2 b0 m x : (length x < 2)%nat -> head_bad (b0 :: bit m 128 + 126 :: x) more_data
| hb_len8 b0 m x : (length x < 8)%nat -> head_bad (b0 :: bit m 128 + 127 :: x) more_data
| hb_long2 b0 m n r : n < 126 -> head_bad (b0 :: bit m 128 + 126 :: [0; n] ++ r) (EWs (DataFrameError "Invalid data frame length"))
| hb_long8 b0 m n r : n < 65536 ->
    head_bad (b0 :: bit m 128 + 127 :: [0; 0; 0; 0; 0; 0; n / 256; n mod 256] ++ r) (EWs (DataFrameError "Invalid data frame length"))
| hb_control_length fin r1 r2 r3 op m n r : 8 <= op < 16 -> 126 <= n < 2 ^ 64 ->
    head_bad (lead fin r1 r2 r3 op m n ++ r) (EWs (DataFrameError "Control frame length too long"))
| hb_control_part r1 r2 r3 op m n r : 8 <= op < 16 -> n < 126 ->
    head_bad (lead false r1 r2 r3 op m n ++ r) (EWs (ProtocolError "Illegal fragmented control frame"))
| hb_key fin r1 r2 r3 op n x : op < 16 -> n < 2 ^ 64 -> control_ok fin op n -> (length x < 4)%nat ->
    head_bad (lead fin r1 r2 r3 op true n ++ x) more_data.

(** Refused frames, with an optional limit on the payload. *)
Inductive frame_bad (limit : option N) : bytes -> werr -> Prop :=
| fb_head l e : head_bad l e -> frame_bad limit l e
| fb_limit lim fin r1 r2 r3 op key n r : limit = Some lim -> lim < n < 2 ^ 64 -> op < 16 -> control_ok fin op n -> key_ok key ->
    frame_bad limit (spec_header fin r1 r2 r3 op key n ++ r) (EIo InvalidData)
| fb_data fin r1 r2 r3 op key n x : (forall lim, limit = Some lim -> n <= lim) -> n < 2 ^ 64 -> op < 16 -> control_ok fin op n -> key_ok key ->
    blen x < n -> frame_bad limit (spec_header fin r1 r2 r3 op key n ++ x) more_data.

(** The accepted frames. *)
Definition frame_good (limit : option N) (l : bytes) : Prop :=
  exists fin r1 r2 r3 op key data r, l = spec_frame fin r1 r2 r3 op key data ++ r /\ op < 16 /\ key_ok key /\
    blen data < 2 ^ 64 /\ (forall lim, limit = Some lim -> blen data <= lim) /\ control_ok fin op (blen data).

(** Beginnings that are answered like an incomplete frame although no octets can complete them:
    a control frame that is not final or has an extended length, and an extended length of eight octets for a number that needs two at most. *)
Inductive never_frame : bytes -> Prop :=
| nf_part r1 r2 r3 op : 8 <= op < 16 -> never_frame [bit false 128 + bit r1 64 + bit r2 32 + bit r3 16 + op]
| nf_control2 fin r1 r2 r3 op m x : 8 <= op < 16 -> (length x < 2)%nat ->
    never_frame ([bit fin 128 + bit r1 64 + bit r2 32 + bit r3 16 + op; bit m 128 + 126] ++ x)
| nf_control8 fin r1 r2 r3 op m x : 8 <= op < 16 -> (length x < 8)%nat ->
    never_frame ([bit fin 128 + bit r1 64 + bit r2 32 + bit r3 16 + op; bit m 128 + 127] ++ x)
| nf_zeros b0 m x : (length x < 2)%nat -> never_frame ([b0; bit m 128 + 127; 0; 0; 0; 0; 0; 0] ++ x).

(** ** Messages *)
(** Frames that go together: all without reserved bits, and continuations from the second on. *)
Definition in_row (a : list dfable) : Prop := Forall no_rsv a /\ Forall (fun d => df_opcode d = 0) (tl a).
Definition payload (a : list dfable) : bytes := concat (map df_take a).
(** A message of this type, text and close with their texts in UTF-8. *)
Inductive body_good : N -> bytes -> message -> Prop :=
| bg_text s : is_utf8 s -> body_good 1 s (msg_text s)
| bg_binary s : body_good 2 s (msg_binary s)
| bg_close_empty : body_good 8 [] msg_close
| bg_close a b s : is_utf8 s -> body_good 8 (a :: b :: s) (msg_close_because (a * 256 + b) s)
| bg_ping s : body_good 9 s (msg_ping s)
| bg_pong s : body_good 10 s (msg_pong s).
Inductive body_bad : N -> bytes -> werr -> Prop :=
| bb_text s : ~ is_utf8 s -> body_bad 1 s (EExtension "Convert Utf8 error")
| bb_close_one b : body_bad 8 [b] more_data
| bb_close a b s : ~ is_utf8 s -> body_bad 8 (a :: b :: s) (EExtension "Convert Utf8 error")
| bb_other op s : ~ In op [1; 2; 8; 9; 10] -> body_bad op s (EWs (ProtocolError "Unsupported opcode received")).
Inductive message_good : list dfable -> message -> Prop :=
| mg d a m : in_row (d :: a) -> body_good (df_opcode d) (payload (d :: a)) m -> message_good (d :: a) m.
Inductive message_bad : list dfable -> werr -> Prop :=
| mb_none : message_bad [] (EWs (ProtocolError "No dataframes provided"))
| mb_start a d r : a <> [] -> in_row a -> df_opcode d <> 0 -> message_bad (a ++ d :: r) (EWs (ProtocolError "Unexpected non-continuation data frame"))
| mb_reserved a d r : in_row a -> a = [] \/ df_opcode d = 0 -> ~ no_rsv d ->
    message_bad (a ++ d :: r) (EWs (ProtocolError "Unsupported reserved bits received"))
| mb_body d a e : in_row (d :: a) -> body_bad (df_opcode d) (payload (d :: a)) e -> message_bad (d :: a) e.
