(** Specification vocabulary for the builders, URL merging, header predicates and text forms (C68-C80). *)
From Coq Require Import Ascii String NArith ZArith Bool List.
From Verif Require Import Base M_Std M_Helper M_Header M_Url M_Http1 M_Frame M_Build S_Http1 S_Http1Api S_Map S_Url S_Frame.
Import ListNotations.
Local Open Scope N_scope.

(** ** Sequences of calls *)
(** [a] is what the last call for which [f] gives something gives, [d] if there is no such call. *)
Definition last_set {O A} (f : O -> option A) (ops : list O) (d a : A) : Prop :=
  (exists before o after, ops = before ++ o :: after /\ f o = Some a /\ forall o', In o' after -> f o' = None) \/
  ((forall o, In o ops -> f o = None) /\ a = d).
(** [e] is the error of the first call that fails. *)
Definition first_failure {O} (fails : O -> werr -> Prop) (ops : list O) (e : werr) : Prop :=
  exists before o after, ops = before ++ o :: after /\ fails o e /\ forall o' e', In o' before -> ~ fails o' e'.
Definition no_failure {O} (fails : O -> werr -> Prop) (ops : list O) : Prop :=
  forall o e, In o ops -> ~ fails o e.

(** ** The request builder *)
Inductive req_op_fails : req_op -> werr -> Prop :=
| rf_method v : (forall m s, In (m, s) method_names -> v <> str s) -> req_op_fails (RbMethod v) (EHttp MethodErr)
| rf_url v e : url_parse v = Err e -> req_op_fails (RbUrl v) e.
Definition given_method (o : req_op) : option method :=
  match o with
  | RbMethod v => option_map fst (find (fun ms => beq v (str (snd ms))) method_names)
  | RbMethodVal m => Some m
  | _ => None
  end.
Definition given_version (o : req_op) : option version := match o with RbVersion v => Some v | _ => None end.
Definition given_url (o : req_op) : option url :=
  match o with
  | RbUrl v => match url_parse v with Ok u => Some u | _ => None end
  | RbUrlVal u => Some u
  | _ => None
  end.
(** The Host field of a URL with a domain and a port. *)
Definition host_field (u : url) : list (bytes * bytes) :=
  match u_domain u, u_port u with
  | Some d, Some p => [(str "Host", d ++ [COLON] ++ dec_print p)]
  | _, _ => []
  end.
(** The header fields that a call stores, in order. *)
Definition given_fields (o : req_op) : list (bytes * bytes) :=
  match o with
  | RbHeader n v => [(n, v)]
  | RbHeaders h => h
  | RbUpgrade s => [(str "Connection", str "Upgrade, HTTP2-Settings"); (str "Upgrade", str "h2c");
                    (str "HTTP2-Settings", encode_http_settings s)]
  | _ => match given_url o with Some u => host_field u | None => [] end
  end.
(** A field that is added when its name is not in the map yet. *)
Definition or_default (n v : bytes) (h : headers) : list (bytes * bytes) :=
  if existsb (fun nv => name_eq (fst nv) n) h then [] else [(n, v)].
(** The same on a list of fields, with names compared up to letter case. *)
Definition with_default (n v : bytes) (l : list (bytes * bytes)) : list (bytes * bytes) :=
  if existsb (fun nv => beq (fold_name (fst nv)) (fold_name n)) l then l else l ++ [(n, v)].
(** Insertions of fields, one after the other. *)
Definition inserts (l : list (bytes * bytes)) : list hop := map (fun nv => HInsert (fst nv) (snd nv)) l.

(** ** The response builder *)
Inductive resp_op_fails : resp_op -> werr -> Prop :=
| pf_status n : (n < 100 \/ 999 < n) -> resp_op_fails (PbStatus n) (EHttp InvalidStatusCode)
| pf_text v : (forall c, 100 <= c <= 999 -> v <> three_digits c) -> resp_op_fails (PbStatusText v) (EHttp InvalidStatusCode).
Definition given_status (o : resp_op) : option N :=
  match o with
  | PbStatus n => if (100 <=? n) && (n <=? 999) then Some n else None
  | PbStatusText [x; y; z] => Some (num_of [x; y; z])
  | _ => None
  end.
Definition given_resp_version (o : resp_op) : option version := match o with PbVersion v => Some v | _ => None end.
Definition given_resp_fields (o : resp_op) : list (bytes * bytes) :=
  match o with
  | PbHeader n v => [(n, v)]
  | PbHeaders h => h
  | PbMethod v => [(str ":method", v)]
  | _ => []
  end.

(** ** The value seen under a name *)
(** The last of the fields stored under the name, letter case aside. *)
Definition last_field (n : bytes) (l : list (bytes * bytes)) : option bytes :=
  option_map snd (find (fun nv => beq (fold_name (fst nv)) (fold_name n)) (rev l)).
(** Names that are equal for the crate exactly when they differ in letter case only. *)
Definition clash_free_names (names : list bytes) : Prop :=
  forall a b, In a names -> In b names -> (name_eq a b = true <-> fold_name a = fold_name b).

(** ** The URL builder *)
Inductive url_op_fails : url_op -> werr -> Prop :=
| uof_scheme v : 64 < blen v -> url_op_fails (OpScheme v) (EUrl UrlInvalid).
(** The scheme a name of at most 64 bytes stands for. *)
Definition scheme_names : list (scheme * string) :=
  [(ScHttp, "http"); (ScHttps, "https"); (ScWs, "ws"); (ScWss, "wss"); (ScFtp, "ftp")]%string.
Definition scheme_named (v : bytes) : scheme :=
  match find (fun ss => beq v (str (snd ss))) scheme_names with Some (s, _) => s | None => ScExt v end.
Definition given_scheme (o : url_op) := match o with OpScheme v => Some (scheme_named v) | _ => None end.
Definition given_user (o : url_op) := match o with OpUser v => Some (Some v) | _ => None end.
Definition given_pass (o : url_op) := match o with OpPass v => Some (Some v) | _ => None end.
Definition given_domain (o : url_op) := match o with OpDomain v => Some (Some v) | _ => None end.
Definition given_port (o : url_op) := match o with OpPort p => Some (Some p) | _ => None end.
Definition given_path (o : url_op) := match o with OpPath v => Some v | _ => None end.
Definition given_query (o : url_op) := match o with OpQuery v => Some (Some v) | _ => None end.
(** The port of a URL: its own or its scheme's. *)
Inductive port_of (u : url) : N -> Prop :=
| po_own p : u_port u = Some p -> port_of u p
| po_default p : u_port u = None -> In (u_scheme u, p) default_ports -> port_of u p
| po_none : u_port u = None -> (forall p, ~ In (u_scheme u, p) default_ports) -> port_of u 0.
Definition with_port (u : url) (p : N) : url :=
  mkUrl (u_scheme u) (u_path u) (u_user u) (u_pass u) (u_domain u) (Some p) (u_query u).

(** ** Merging URLs *)
(** The components that a URL sets. *)
Definition sets_scheme (u : url) : Prop := u_scheme u <> ScNone.
Definition sets_path (u : url) : Prop := u_path u <> str "/".
Definition sets_port (u : url) : Prop := exists p, u_port u = Some p /\ p <> 0.
Definition sets {A} (o : option A) : Prop := o <> None.
(** [r] is [y] if it is set and [x] otherwise. *)
Definition overrides {A} (set : Prop) (x y r : A) : Prop := (set -> r = y) /\ (~ set -> r = x).

(** ** Header predicates *)
Definition substring (w v : bytes) : Prop := exists a b, v = a ++ w ++ b.
(** RFC 7230 section 7: the elements of a comma-separated list, without the spaces and tabs around them,
    letter case aside. *)
Fixpoint strip_left (l : bytes) : bytes :=
  match l with b :: l' => if (b =? 32) || (b =? 9) then strip_left l' else l | [] => [] end.
Definition strip (l : bytes) : bytes := rev (strip_left (rev (strip_left l))).
Definition list_has (v w : bytes) : Prop :=
  exists e, In e (split_on 44 v) /\ fold_name (strip e) = fold_name w.

(** ** RFC 7540 section 7: error codes *)
Definition error_codes : list (N * string) :=
  [(0, "NO_ERROR"); (1, "PROTOCOL_ERROR"); (2, "INTERNAL_ERROR"); (3, "FLOW_CONTROL_ERROR");
   (4, "SETTINGS_TIMEOUT"); (5, "STREAM_CLOSED"); (6, "FRAME_SIZE_ERROR"); (7, "REFUSED_STREAM");
   (8, "CANCEL"); (9, "COMPRESSION_ERROR"); (10, "CONNECT_ERROR"); (11, "ENHANCE_YOUR_CALM");
   (12, "INADEQUATE_SECURITY"); (13, "HTTP_1_1_REQUIRED")]%string.
(** RFC 7231 sections 4.2.1 and 4.2.3: methods that are safe and cacheable. *)
Definition safe_cacheable (m : method) : Prop := m = MGet \/ m = MHead.
