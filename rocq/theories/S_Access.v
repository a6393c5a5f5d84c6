(** Specification for C89 and C90: what a sequence of setter calls leaves behind. *)
From Coq Require Import Ascii String NArith Bool List.
From Verif Require Import Base M_Http1 M_Url M_Frame M_Access.
Import ListNotations.
Local Open Scope N_scope.

(** What the last call that concerns a field (those for which [sel] is [Some]) has written, [d] if there is none. *)
Fixpoint latest {A B} (sel : A -> option B) (d : B) (calls : list A) : B :=
  match calls with
  | [] => d
  | c :: cs => latest sel (match sel c with Some v => v | None => d end) cs
  end.

(** Which field a call concerns, and what it writes. *)
Definition sets_window c := match c with CallWindow o => Some o | _ => None end.
Definition sets_concurrent c := match c with CallConcurrent o => Some o | _ => None end.
Definition sets_frame_size c := match c with CallFrameSize o => Some o | _ => None end.
Definition sets_list_size c := match c with CallListSize o => Some o | _ => None end.
Definition sets_push c := match c with CallPush b => Some (Some b) | _ => None end.
Definition sets_connect c := match c with CallConnect o => Some o | _ => None end.

Definition sets_end_headers c := match c with CallEndHeaders => Some true | _ => None end.
Definition sets_end_stream c := match c with CallEndStream => Some true | _ => None end.
Definition sets_method c := match c with CallMethod m => Some (Some m) | _ => None end.
Definition sets_scheme c := match c with CallScheme s => Some (Some s) | _ => None end.
Definition sets_authority c := match c with CallAuthority a => Some (Some a) | _ => None end.
Definition sets_path c := match c with CallPath p => Some (Some p) | _ => None end.
Definition sets_status c := match c with CallStatus n => Some (Some n) | _ => None end.

Definition psets_end_headers c := match c with PCallEndHeaders => Some true | _ => None end.
Definition psets_end_stream c := match c with PCallEndStream => Some true | _ => None end.
Definition psets_method c := match c with PCallMethod m => Some (Some m) | _ => None end.
Definition psets_authority c := match c with PCallAuthority a => Some (Some a) | _ => None end.
Definition psets_path c := match c with PCallPath p => Some (Some p) | _ => None end.
Definition psets_status c := match c with PCallStatus n => Some (Some n) | _ => None end.

Definition dsets_end_stream c := match c with DCallEndStream b => Some b | _ => None end.
Definition dsets_padded c := match c with DCallPadded => Some true | _ => None end.
Definition dsets_payload c := match c with DCallPayload l => Some l | _ => None end.

(** Settings calls with values that RFC 9113 6.5.2 and RFC 8441 allow. *)
Definition legal_frame_size (n : N) : Prop := 16384 <= n <= 16777215.
Definition legal_call (c : settings_call) : Prop :=
  match c with
  | CallWindow (Some n) => n <= 2147483647
  | CallConcurrent (Some n) | CallListSize (Some n) => n < 4294967296
  | CallFrameSize (Some n) => legal_frame_size n
  | CallConnect (Some n) => n <= 1
  | _ => True
  end.

(** An error is explained by the text it is displayed as. *)
Definition explained (e : werr) : Prop := err_text e <> ""%string.
