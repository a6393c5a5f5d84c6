(** A WebSocket connection as a whole (C83): messages in fragments, with control messages between the fragments. *)
From Coq Require Import NArith Bool List.
From Verif Require Import Base S_Utf8 M_Ws S_Ws S_WsApi.
Import ListNotations.
Local Open Scope N_scope.

(** The message that a payload with this opcode is (RFC 6455 5.5.1-5.6). *)
Inductive says : opcode -> bytes -> owned -> Prop :=
| sy_text p : is_utf8 p -> says OText p (OwText p)
| sy_binary p : says OBinary p (OwBinary p)
| sy_ping p : says OPing p (OwPing p)
| sy_pong p : says OPong p (OwPong p)
| sy_close : says OClose [] (OwClose None)
| sy_because a b r : is_utf8 r -> says OClose (a :: b :: r) (OwClose (Some {| cd_code := a * 256 + b; cd_reason := r |})).
(** A frame without reserved bits. *)
Definition plain_frame (fin : bool) (o : opcode) (p : bytes) : dataframe :=
  {| d_fin := fin; d_rsv := (false, false, false); d_op := o; d_data := p |}.
Definition is_control (o : opcode) : Prop := 8 <= opcode_u8 o.

(** [talk st ds ms]: the frames [ds] carry the messages [ms] (RFC 6455 5.4), where [st] is the opcode and the payload so
    far of the message that is still incomplete, if any.  Control frames may come anywhere; a message in fragments
    starts with its opcode, goes on with continuation frames, and ends with FIN. *)
Inductive talk : option (opcode * bytes) -> list dataframe -> list owned -> Prop :=
| tk_end : talk None [] []
| tk_control st o p m ds ms : is_control o -> says o p m -> talk st ds ms -> talk st (plain_frame true o p :: ds) (m :: ms)
| tk_whole o p m ds ms : ~ is_control o -> says o p m -> talk None ds ms -> talk None (plain_frame true o p :: ds) (m :: ms)
| tk_first o p ds ms : ~ is_control o -> talk (Some (o, p)) ds ms -> talk None (plain_frame false o p :: ds) ms
| tk_middle o acc p ds ms : talk (Some (o, acc ++ p)) ds ms -> talk (Some (o, acc)) (plain_frame false Continuation p :: ds) ms
| tk_last o acc p m ds ms : says o (acc ++ p) m -> talk None ds ms ->
    talk (Some (o, acc)) (plain_frame true Continuation p :: ds) (m :: ms).

(** The receiver: read frame by frame; a control frame is a message; other frames are kept until one with FIN, and are
    then given to OwnedMessage::from_dataframes. *)
Definition ws_take (pending : list dataframe) (d : dataframe) : res (list owned * list dataframe) :=
  if 8 <=? opcode_u8 (d_op d) then m <- owned_from_dataframes [dataframe_df d] ;; Ok ([m], pending)
  else if d_fin d then m <- owned_from_dataframes (map dataframe_df (pending ++ [d])) ;; Ok ([m], [])
  else Ok ([], pending ++ [d]).
Fixpoint ws_receive (k : nat) (pending : list dataframe) (l : bytes) : res (list owned * list dataframe * bytes) :=
  match k with
  | O => Ok ([], pending, l)
  | S k' =>
    ' (d, l1) <- read_dataframe l ;;
    ' (m, pending1) <- ws_take pending d ;;
    ' (ms, pending2, l2) <- ws_receive k' pending1 l1 ;;
    Ok (m ++ ms, pending2, l2)
  end.
