(** How an endpoint uses the frame layer, for the statements C34-C43, C55, C64-: read nine octets with
    FrameHeader::parse, wait for as many octets as it announces, and give them to Frame::parse. *)
From Coq Require Import Ascii String NArith Bool List.
From Verif Require Import Base S_Http1 M_Header M_Url M_Http1 M_Hpack S_Hpack S_HpackApi S_Near S_Http1Api M_Frame M_H2 S_Frame.
Import ListNotations.
Local Open Scope N_scope.

(** One frame from the front of the input: the decoder table afterwards, the frame and the rest of the
    input.  [max] is the limit on the size of header lists. *)
Definition recv (t : hindex) (max : N) (l : bytes) : hindex * res (frame * bytes) :=
  match fh_parse l with
  | Ok (h, r) =>
    match take_N (fh_length h) r with
    | None => (t, Err (EHttp2 Short))
    | Some (p, rest) =>
      match frame_parse t h p max with
      | (t', Ok f) => (t', Ok (f, rest))
      | (t', Err e) => (t', Err e)
      | (t', Panic) => (t', Panic)
      | (t', Diverge) => (t', Diverge)
      end
    end
  | Err e => (t, Err e)
  | Panic => (t, Panic)
  | Diverge => (t, Diverge)
  end.
(** All the input, frame by frame. *)
Inductive received (max : N) : hindex -> bytes -> hindex -> list frame -> Prop :=
| rc_nil t : received max t [] t []
| rc_cons t l t1 f r t2 fs : recv t max l = (t1, Ok (f, r)) -> received max t1 r t2 fs -> received max t l t2 (f :: fs).

(** ** Header blocks *)
(** A list of lower-case names, as HTTP/2 requires. *)
Definition h2_names (fs : list hfield) : Prop := Forall (fun f => Forall h2_char (fst f)) fs.
(** [te] and [td] are an encoder and a decoder of the same connection: they have exchanged some header
    blocks (or none), changed their table size together, and [fs] is to be sent next.  The condition is that
    of C31: every field that is sent again is still among the newest 65 entries. *)
Definition connection (te td : hindex) (fs : list hfield) : Prop :=
  exists m evs got, exchange (hi_with_size m) (hi_with_size m) evs = Ok (te, td, got) /\
    Forall sendable (concat (sent evs) ++ fs) /\ h2_names (concat (sent evs) ++ fs) /\
    all_near m (evs ++ [EvBlock fs]).

(** The frames of a header block in the pieces [c :: cs], with the flags [fl] on the last one. *)
Fixpoint continuations (fl id : N) (cs : list bytes) : bytes :=
  match cs with
  | [] => []
  | [c] => frame_octets 9 fl id c
  | c :: r => frame_octets 9 0 id c ++ continuations fl id r
  end.
Definition block_octets (fl id : N) (c : bytes) (cs : list bytes) : bytes :=
  match cs with
  | [] => frame_octets 1 fl id c
  | _ => frame_octets 1 0 id c ++ continuations fl id cs
  end.

(** Pseudo header fields whose values can be read (RFC 9113 8.3.1 and 8.3.2). *)
Definition pseudo_ok (f : hfield) : Prop :=
  (fst f = str ":method" -> exists m s, In (m, s) method_names /\ snd f = str s) /\
  (fst f = str ":scheme" -> blen (utf8_lossy (snd f)) <= 64) /\
  (fst f = str ":status" -> exists c, 100 <= c <= 999 /\ snd f = three_digits c).

(** Ordinary fields: lower-case names, not starting with ':', each once. *)
Definition regular (fs : list hfield) : Prop :=
  h2_names fs /\ NoDup (map fst fs) /\ Forall (fun f => hd_error (fst f) <> Some 58) fs.
(** The fields of a request and of a response (RFC 9113 8.3). *)
Definition request_fields (m : method) (a : bytes) (s : scheme) (p : bytes) (fs : list hfield) : list hfield :=
  [(str ":method", method_str m); (str ":authority", a); (str ":scheme", scheme_str s); (str ":path", p)] ++ fs.
Definition response_fields (code : N) (fs : list hfield) : list hfield := (str ":status", three_digits code) :: fs.
