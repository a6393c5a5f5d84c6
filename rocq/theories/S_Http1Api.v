(** Predicates and small client loops used to state the HTTP/1 theorems. *)
From Coq Require Import Ascii String NArith ZArith Bool List.
From Verif Require Import Base M_Std M_Helper M_Header M_Url M_Http1 S_Http1.
Import ListNotations.
Local Open Scope N_scope.

(** The methods and versions with a wire form. *)
Definition known_methods : list method :=
  [MOptions; MGet; MPost; MPut; MDelete; MHead; MTrace; MConnect; MPatch].
Definition known_versions : list version := [V10; V11; V2; V3].

(** The map obtained by inserting fields one after the other. *)
Definition add_fields (h : headers) (hs : list (bytes * bytes)) : headers :=
  fold_left (fun h nv => hm_insert h (fst nv) (snd nv)) hs h.
(** No two names of the list are equal for HeaderName's [==]. *)
Fixpoint distinct_names (hs : list (bytes * bytes)) : Prop :=
  match hs with
  | [] => True
  | nv :: hs' => Forall (fun nv' => name_eq (fst nv) (fst nv') = false) hs' /\ distinct_names hs'
  end.
Definition fields_ok (hs : list (bytes * bytes)) : Prop :=
  Forall (fun nv => name_ok (fst nv) /\ value_ok (snd nv)) hs.

(** ** The URL of a request *)
(** Value of a decimal numeral. *)
Definition num_of (ds : bytes) : N := fold_left (fun a b => 10 * a + (b - 48)) ds 0.
(** Text of a 16-bit port number (Rust's integer parser allows a leading '+'). *)
Definition port_text (p : bytes) (n : N) : Prop :=
  n < 65536 /\ exists ds, ds <> [] /\ Forall digit ds /\ (p = ds \/ p = 43 :: ds) /\ n = num_of ds.
(** `name` or `name:port`. *)
Inductive host_parts : bytes -> bytes -> N -> Prop :=
| hp_plain d : ~ In COLON d -> host_parts d d 80
| hp_port d p n : ~ In COLON d -> ~ In COLON p -> port_text p n -> host_parts (d ++ COLON :: p) d n.
Definition with_host (u : url) (d : bytes) (n : N) : url :=
  mkUrl (u_scheme u) (u_path u) (u_user u) (u_pass u) (Some d) (Some n) (u_query u).
Definition with_scheme (u : url) (s : scheme) : url :=
  mkUrl s (u_path u) (u_user u) (u_pass u) (u_domain u) (u_port u) (u_query u).
(** The scheme given by a ":scheme" header, http without one. *)
Inductive scheme_hint (h : headers) : scheme -> Prop :=
| sh_none : hm_get h (str ":scheme") = None -> scheme_hint h ScHttp
| sh_some v s : hm_get h (str ":scheme") = Some v -> scheme_of_str (utf8_lossy v) = Ok s -> scheme_hint h s
| sh_bad v : hm_get h (str ":scheme") = Some v -> (forall s, scheme_of_str (utf8_lossy v) <> Ok s) ->
    scheme_hint h ScHttp.
(** A target without a domain takes it from the Host header. *)
Inductive host_filled (h : headers) (u : url) : url -> Prop :=
| hf_own : u_domain u <> None -> host_filled h u u
| hf_none : u_domain u = None -> hm_get_host h = None -> host_filled h u u
| hf_host hst d n : u_domain u = None -> hm_get_host h = Some hst -> host_parts hst d n ->
    host_filled h u (with_host u d n).
(** A target without a scheme takes it from the ":scheme" header or is http. *)
Inductive scheme_filled (h : headers) (u : url) : url -> Prop :=
| sf_own : u_scheme u <> ScNone -> scheme_filled h u u
| sf_hint s : u_scheme u = ScNone -> scheme_hint h s -> scheme_filled h u (with_scheme u s).
(** The URL that a request with this method, target and headers denotes. *)
Inductive wire_url (m : method) (t : bytes) (h : headers) : url -> Prop :=
| wu_connect d n : m = MConnect -> host_parts t d n -> wire_url m t h (with_host url_new d n)
| wu_target u u1 u2 : m <> MConnect -> url_parse t = Ok u -> host_filled h u u1 -> scheme_filled h u1 u2 ->
    wire_url m t h u2.

(** Names of the methods and versions. *)
Definition method_names : list (method * string) :=
  [(MOptions, "OPTIONS"); (MGet, "GET"); (MPost, "POST"); (MPut, "PUT"); (MDelete, "DELETE");
   (MHead, "HEAD"); (MTrace, "TRACE"); (MConnect, "CONNECT"); (MPatch, "PATCH")]%string.
Definition version_names : list (version * string) :=
  [(V10, "HTTP/1.0"); (V11, "HTTP/1.1"); (V2, "HTTP/2"); (V3, "HTTP/3")]%string.
(** The three decimal digits of a code. *)
Definition three_digits (c : N) : bytes := [48 + c / 100; 48 + c / 10 mod 10; 48 + c mod 10].
(** Paths that are written and read without any escaping. *)
Definition plain_path (p : bytes) : Prop :=
  hd_error p = Some 47 /\ Forall (fun b => vchar b /\ b <> 37 /\ b <> 63 /\ b <> 64) p.

(** ** Chunked bodies: the client's loop.
    Take the reported number of bytes after the size line, skip the two bytes
    that end the chunk, stop after the empty chunk. *)
Fixpoint read_chunks (fuel : nat) (l : bytes) : res (list bytes * bytes) :=
  match fuel with
  | O => Diverge
  | S f =>
    ' (off, num) <- parse_chunk_data l ;;
    let l1 := skipn (N.to_nat off) l in
    let data := firstn (N.to_nat num) l1 in
    let l2 := skipn (N.to_nat (num + 2)) l1 in
    if num =? 0 then Ok ([], l2)
    else ' (ds, l3) <- read_chunks f l2 ;; Ok (data :: ds, l3)
  end.

(** ** Histories of HeaderMap calls *)
Inductive hop :=
| HInsert (n v : bytes) | HPush (n v : bytes) | HRemove (n : bytes) | HClear | HSet (n v : bytes).
(** The calls on the crate's map; [HSet] is [map[n] = v] through IndexMut. *)
Definition hop_run (h : headers) (o : hop) : res headers :=
  match o with
  | HInsert n v => Ok (hm_insert h n v)
  | HPush n v => Ok (hm_push h n v)
  | HRemove n => Ok (fst (hm_remove h n))
  | HClear => Ok (hm_clear h)
  | HSet n v => hm_index_mut h n (fun _ => v)
  end.
Definition hops_run (ops : list hop) : res headers :=
  fold_left (fun r o => h <- r ;; hop_run h o) ops (Ok []).
Definition hop_names (o : hop) : list bytes :=
  match o with
  | HInsert n _ | HPush n _ | HRemove n | HSet n _ => [n]
  | HClear => []
  end.
