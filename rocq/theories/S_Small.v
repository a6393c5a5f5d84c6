(** Specification for C99-C101: the wire form of a WebSocket message (RFC 6455 5.2, 5.5, 5.6), names of the
    status constants, the HTTP/2 connection preface (RFC 9113 3.4).  It refers to the model only for the names
    of its data types. *)
From Coq Require Import Ascii String NArith Bool List.
From Verif Require Import Base S_Utf8 M_Ws.
Import ListNotations.
Local Open Scope N_scope.

(** ** WebSocket: opcode and payload of a message *)
Definition wire_opcode (m : owned) : N :=
  match m with OwText _ => 1 | OwBinary _ => 2 | OwClose _ => 8 | OwPing _ => 9 | OwPong _ => 10 end.
Definition wire_payload (m : owned) : bytes :=
  match m with
  | OwText s | OwBinary s | OwPing s | OwPong s => s
  | OwClose None => []
  | OwClose (Some c) => [cd_code c / 256; cd_code c mod 256] ++ cd_reason c
  end.
(** The values of Rust's types: a String holds UTF-8, a status is a u16. *)
Definition typed_owned (m : owned) : Prop :=
  match m with
  | OwText s => is_utf8 s
  | OwClose (Some c) => is_utf8 (cd_reason c) /\ cd_code c < 65536
  | _ => True
  end.
(** A Message, whose fields are public, that has the form the constructors give it. *)
Definition regular_message (m : message) : Prop :=
  match m_op m, m_code m with
  | TText, None => is_utf8 (m_payload m)
  | TClose, Some _ => is_utf8 (m_payload m)
  | TClose, None => m_payload m = []
  | _, None => True
  | _, Some _ => False
  end.

(** ** The name of a constant spells its phrase: capitals, blanks and hyphens as underscores, no apostrophes *)
Definition upper (b : N) : N := if (97 <=? b) && (b <=? 122) then b - 32 else b.
Definition spelled (phrase : bytes) : bytes :=
  flat_map (fun b => if (b =? 32) || (b =? 45) then [95] else if b =? 39 then [] else [upper b]) phrase.

(** ** RFC 9113 3.4: 0x505249202a20485454502f322e300d0a0d0a534d0d0a0d0a *)
Definition rfc_preface : bytes :=
  [0x50; 0x52; 0x49; 0x20; 0x2a; 0x20; 0x48; 0x54; 0x54; 0x50; 0x2f; 0x32; 0x2e; 0x30; 0x0d; 0x0a; 0x0d; 0x0a;
   0x53; 0x4d; 0x0d; 0x0a; 0x0d; 0x0a].
