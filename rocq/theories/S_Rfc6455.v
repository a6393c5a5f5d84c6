(** One direction of a WebSocket connection as RFC 6455 has it (C111). *)
From Coq Require Import NArith Bool List.
From Verif Require Import Base S_Utf8 M_Ws S_Ws.
Import ListNotations.
Local Open Scope N_scope.

(** 5.2: a frame without reserved bits. *)
Record wframe := mkWF { wf_fin : bool; wf_op : N; wf_key : option (N * N * N * N); wf_data : bytes }.
Definition wframe_octets (f : wframe) : bytes := spec_frame (wf_fin f) false false false (wf_op f) (wf_key f) (wf_data f).
Definition wframes_octets (fs : list wframe) : bytes := concat (map wframe_octets fs).

(** 5.5 and 5.6: what a payload is for the opcodes 1 text, 2 binary, 8 close, 9 ping and 10 pong. *)
Inductive meant : N -> bytes -> owned -> Prop :=
| me_text p : is_utf8 p -> meant 1 p (OwText p)
| me_binary p : meant 2 p (OwBinary p)
| me_close : meant 8 [] (OwClose None)
| me_because a b r : is_utf8 r -> meant 8 (a :: b :: r) (OwClose (Some {| cd_code := a * 256 + b; cd_reason := r |}))
| me_ping p : meant 9 p (OwPing p)
| me_pong p : meant 10 p (OwPong p).
(** 5.4: [rfc_talk st fs ms] - the frames carry these messages; [st] is the opcode and the payload so far of a message
    that has begun.  Control frames, of at most 125 octets, may come between the others. *)
Inductive rfc_talk : option (N * bytes) -> list wframe -> list owned -> Prop :=
| rt_end : rfc_talk None [] []
| rt_control st op k p m fs ms : op = 8 \/ op = 9 \/ op = 10 -> blen p <= 125 -> meant op p m -> rfc_talk st fs ms ->
    rfc_talk st (mkWF true op k p :: fs) (m :: ms)
| rt_whole op k p m fs ms : op = 1 \/ op = 2 -> meant op p m -> rfc_talk None fs ms -> rfc_talk None (mkWF true op k p :: fs) (m :: ms)
| rt_first op k p fs ms : op = 1 \/ op = 2 -> rfc_talk (Some (op, p)) fs ms -> rfc_talk None (mkWF false op k p :: fs) ms
| rt_middle op acc k p fs ms : rfc_talk (Some (op, acc ++ p)) fs ms -> rfc_talk (Some (op, acc)) (mkWF false 0 k p :: fs) ms
| rt_last op acc k p m fs ms : meant op (acc ++ p) m -> rfc_talk None fs ms -> rfc_talk (Some (op, acc)) (mkWF true 0 k p :: fs) (m :: ms).

(** 5.1 and 5.3: a client masks every frame, a server none.  5.2: the highest bit of a length is 0. *)
Definition masks_ok (client : bool) (fs : list wframe) : Prop :=
  Forall (fun f => if client then wf_key f <> None else wf_key f = None) fs.
Definition lengths_ok (fs : list wframe) : Prop := Forall (fun f => blen (wf_data f) < 2 ^ 63) fs.
(** 7.4: codes from 1000 to 4999 but those that are never sent. *)
Definition code_ok (m : owned) : Prop :=
  forall c, m = OwClose (Some c) -> 1000 <= cd_code c <= 4999 /\ ~ In (cd_code c) [1004; 1005; 1006; 1015].
(** 5.5.1: no data after a close. *)
Definition close_last (ms : list owned) : Prop := forall a c b x, ms = a ++ OwClose c :: b -> In x b -> ow_is_control x = true.
(** What is in these frames at all: keys of four octets and lengths of 64 bits. *)
Definition frames_range (fs : list wframe) : Prop := Forall (fun f => key_ok (wf_key f) /\ blen (wf_data f) < 2 ^ 64) fs.

Definition rfc_said (client : bool) (fs : list wframe) (ms : list owned) : Prop :=
  frames_range fs /\ masks_ok client fs /\ lengths_ok fs /\ rfc_talk None fs ms /\ Forall code_ok ms /\ close_last ms.
