(** How many octets the readers can make out of the octets that they are given (C106). *)
From Coq Require Import Ascii String NArith Bool List.
From Verif Require Import Base M_Url M_Http1 M_Ws S_WsApi M_Frame M_H2.
Import ListNotations.
Local Open Scope N_scope.

(** Octets of names and values. *)
Definition field_octets (f : bytes * bytes) : N := blen (fst f) + blen (snd f).
Definition list_octets (fs : list (bytes * bytes)) : N := fold_right (fun f n => field_octets f + n) 0 fs.
Definition opt_octets (o : option bytes) : N := match o with Some s => blen s | None => 0 end.
(** Octets of the texts of a URL. *)
Definition url_octets (u : url) : N :=
  blen (scheme_str (u_scheme u)) + blen (u_path u) + opt_octets (u_user u) + opt_octets (u_pass u) + opt_octets (u_domain u) + opt_octets (u_query u).
(** Octets of the texts of a received HEADERS frame. *)
Definition headers_octets (h : headersf) : N :=
  list_octets (hf_fields h) + opt_octets (pt_authority (hf_parts h)) + opt_octets (pt_path (hf_parts h)) +
  match pt_scheme (hf_parts h) with Some s => blen (scheme_str s) | None => 0 end.
(** Octets that a received frame keeps of its payload. *)
Definition kept (f : frame) : N :=
  match f with
  | FData d => blen (da_data d)
  | FPing p => blen (pg_payload p)
  | FGoAway g => blen (ga_debug g)
  | FPushPromise p => list_octets (pp_fields p)
  | _ => 0
  end.
(** The largest field that one octet can stand for: 28 octets is the longest entry of the static table
    ("access-control-allow-origin" has 27, "strict-transport-security" 25, "accept-encoding: gzip, deflate" 28). *)
Definition field_max (max : N) : N := N.max 28 (max - 32).
(** A block that puts a field of 4064 octets into the table and then names it [n] more times, in one octet each. *)
Definition large : bytes * bytes := ([120], repeat 97 (N.to_nat 4063)).
Definition blow_up (n : nat) : bytes := ([64] ++ [1; 120] ++ [127; 224; 30] ++ repeat 97 (N.to_nat 4063)) ++ repeat 190 n.
