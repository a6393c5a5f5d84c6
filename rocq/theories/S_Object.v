(** Specification for C96: what each call on a message does to each of its parts.  A part is what is left of it after
    all the changes that calls have made to it, in order. *)
From Coq Require Import Ascii String NArith ZArith Bool List.
From Verif Require Import Base M_Std M_Header M_Url M_Http1 M_Ext M_Write M_Build M_Object S_Http1 S_Build.
Import ListNotations.
Local Open Scope N_scope.

(** The part [a] after the calls [cs], of which [c] changes it by [f c]. *)
Fixpoint changed {C A} (f : C -> A -> A) (cs : list C) (a : A) : A :=
  match cs with [] => a | c :: cs' => changed f cs' (f c a) end.
(** Requests. *)
Definition on_method {V B} (c : req_call V B) (m : method) : method := match c with QMethod m' => m' | _ => m end.
Definition on_version {V B} (c : req_call V B) (v : version) : version := match c with QVersion v' => v' | _ => v end.
Definition on_url {V B} (c : req_call V B) (u : url) : url :=
  match c with
  | QPath p => mkUrl (u_scheme u) p (u_user u) (u_pass u) (u_domain u) (u_port u) (u_query u)
  | QScheme s => mkUrl s (u_path u) (u_user u) (u_pass u) (u_domain u) (u_port u) (u_query u)
  | QUrl u' => u'
  | QUrlMut f => f u
  | _ => u
  end.
(** set_url adds the Host field of a URL with domain and port unless there is one. *)
Definition on_headers {V B} (c : req_call V B) (h : headers) : headers :=
  match c with
  | QUrl u => if existsb (fun nv => name_eq (fst nv) (str "Host")) h then h
              else fold_left (fun acc nv => hm_insert acc (fst nv) (snd nv)) (host_field u) h
  | QHeadersMut f | QHeadersBodyMut f _ => f h
  | _ => h
  end.
Definition on_ext {V B} (c : req_call V B) (e : extensions V) : extensions V := match c with QExtMut f => f e | _ => e end.
Definition on_body {V B} (c : req_call V B) (b : B) : B :=
  match c with QBodyMut f | QHeadersBodyMut _ f => f b | QReplaceClone b' => b' | _ => b end.
(** Responses. *)
Definition pon_status {V B} (c : resp_call V B) (s : N) : N := match c with PStatusMut f => f s | _ => s end.
Definition pon_version {V B} (c : resp_call V B) (v : version) : version := match c with PVersionMut f => f v | _ => v end.
Definition pon_headers {V B} (c : resp_call V B) (h : headers) : headers :=
  match c with PHeadersMut f | PHeadersBodyMut f _ => f h | _ => h end.
Definition pon_ext {V B} (c : resp_call V B) (e : extensions V) : extensions V := match c with PExtMut f => f e | _ => e end.
Definition pon_body {V B} (c : resp_call V B) (b : B) : B :=
  match c with PBodyMut f | PHeadersBodyMut _ f => f b | PReplaceBody b' | PReplaceClone b' => b' | _ => b end.

(** All parts of one request are those of another. *)
Definition same_head (q q' : request) : Prop :=
  q_method q = q_method q' /\ q_version q = q_version q' /\ q_url q = q_url q' /\ q_header q = q_header q'.

(** The response builder: the value of type [T] that a call gives, and what a call does to the head. *)
Definition gives_extension {V} (T : N) (c : pb_call V) : option (option V) :=
  match c with PbExtension U v => if T =? U then Some (Some v) else None | _ => None end.
Definition pb_head_step {V} (c : pb_call V) (p : response) : res response :=
  match c with
  | PbCall o => resp_op_apply p o
  | PbExtension _ _ => Ok p
  | PbHeadersMut f => Ok (mkResp (p_status p) (p_version p) (f (p_header p)) (p_partial p))
  end.
