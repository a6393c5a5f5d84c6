(** What a caller expects of functions that write into a buffer and return a count (C84-C86). *)
From Coq Require Import NArith List.
From Verif Require Import Base M_Frame M_H2 M_Write.
Import ListNotations.
Local Open Scope N_scope.

(** The octets were appended and the result is their number. *)
Definition wrote (w : wr) (b : bytes) : Prop := fst w = b /\ snd w = Ok (blen b).
(** The write does what the octets [r] say: all of them and their number, or the same failure. *)
Definition agrees (w : wr) (r : res bytes) : Prop :=
  match r with
  | Ok b => wrote w b
  | Err e => snd w = Err e
  | Panic => snd w = Panic
  | Diverge => snd w = Diverge
  end.
(** The octets of a body. *)
Definition body_bytes (b : body) : bytes :=
  match b with BStr s | BString s => s | BUnit => [] | BVec v | BSlice v | BBinary v | BBinaryMut v => v end.
(** Frames of the same type. *)
Definition same_type (f g : frame) : Prop :=
  match f, g with
  | FData _, FData _ | FHeaders _, FHeaders _ | FPriority _, FPriority _ | FPushPromise _, FPushPromise _
  | FSettings _, FSettings _ | FPing _, FPing _ | FGoAway _, FGoAway _ | FWindowUpdate _, FWindowUpdate _ | FReset _, FReset _ => True
  | _, _ => False
  end.
(** The stream of a frame (0 for the connection). *)
Definition on_stream (f : frame) : N :=
  match f with FPriority p => pr_id p | _ => frame_stream_id f end.
