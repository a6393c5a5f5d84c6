(** Predicates and small client loops used to state the WebSocket theorems. *)
From Coq Require Import NArith Bool List.
From Verif Require Import Base S_Utf8 M_Ws S_Ws.
Import ListNotations.
Local Open Scope N_scope.

(** The instances of DataFrameable in the crate are coherent. *)
Definition df_ok (d : dfable) : Prop :=
  df_take d = concat (df_chunks d) /\ df_size d = blen (df_take d).

(** A data frame within the limits of RFC 6455. *)
Definition frame_ok (d : dataframe) : Prop :=
  control_ok (d_fin d) (opcode_u8 (d_op d)) (blen (d_data d)) /\ blen (d_data d) < 2 ^ 64.

(** Reading [n] frames in sequence. *)
Fixpoint read_frames (n : nat) (l : bytes) : res (list dataframe * bytes) :=
  match n with
  | O => Ok ([], l)
  | S n' =>
    ' (d, l1) <- read_dataframe l ;;
    ' (ds, l2) <- read_frames n' l1 ;;
    Ok (d :: ds, l2)
  end.

(** Writing frames in sequence, each with its own masking choice. *)
Fixpoint write_frames (ds : list (dataframe * option mkey)) : res bytes :=
  match ds with
  | [] => Ok []
  | (d, k) :: ds' =>
    w <- write_to (dataframe_df d) k ;;
    w' <- write_frames ds' ;;
    Ok (w ++ w')
  end.

(** No reserved bit is set. *)
Definition no_rsv (d : dfable) : Prop := df_rsv d = (false, false, false).

(** A fragment given as (fin, opcode, payload) as a frame with no reserved bits. *)
Definition frag_frame (x : bool * N * bytes) : dataframe :=
  {| d_fin := fst (fst x); d_rsv := (false, false, false);
     d_op := match opcode_new (snd (fst x)) with Some o => o | None => Control5 end;
     d_data := snd x |}.

(** The messages the public constructors build, with the RFC limits. *)
Inductive api_message : message -> Prop :=
| api_text s : is_utf8 s -> blen s < 2 ^ 64 -> api_message (msg_text s)
| api_binary s : blen s < 2 ^ 64 -> api_message (msg_binary s)
| api_ping s : blen s <= 125 -> api_message (msg_ping s)
| api_pong s : blen s <= 125 -> api_message (msg_pong s)
| api_close : api_message msg_close
| api_close_because c s : c < 65536 -> is_utf8 s -> blen s <= 123 -> api_message (msg_close_because c s).

(** The same for the owned representation. *)
Definition api_owned (m : owned) : Prop :=
  match m with
  | OwText s => is_utf8 s /\ blen s < 2 ^ 64
  | OwBinary s => blen s < 2 ^ 64
  | OwPing s | OwPong s => blen s <= 125
  | OwClose None => True
  | OwClose (Some c) => cd_code c < 65536 /\ is_utf8 (cd_reason c) /\ blen (cd_reason c) <= 123
  end.
