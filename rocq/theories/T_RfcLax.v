(** C109: what is accepted that RFC 9112 does not allow. *)
From Coq Require Import Ascii String NArith ZArith Lia Bool List ZifyBool ZifyNat ZifyN.
From Verif Require Import Base S_Utf8 P_Base M_Std M_Helper M_Header M_Url M_Http1 S_Hex S_Http1 S_Http1Api P_Msg S_Url S_Rfc9112 P_Rfc9112 P_RfcLax.
Import ListNotations.
Local Open Scope N_scope.

(** Every request that is accepted has a head of this kind, and the head conforms exactly if there are no empty lines in front, single spaces
    between the words, a target of the four forms, one of the two versions, CRLF behind it, and conforming header lines. *)
Theorem C109_request : forall q l q' n, bytes_ok l -> req_parse q l = (q', Ok n) ->
  exists bl m i t j v e fs hs rest,
    l = (bl ++ method_str m ++ spaces (S i) ++ t ++ spaces (S j) ++ version_str v ++ e ++ fs) ++ rest /\
    n = blen (bl ++ method_str m ++ spaces (S i) ++ t ++ spaces (S j) ++ version_str v ++ e ++ fs) /\
    blanks bl /\ In m known_methods /\ word t /\ In v known_versions /\ eol e /\ fields fs hs /\
    (rfc_request_octets (bl ++ method_str m ++ spaces (S i) ++ t ++ spaces (S j) ++ version_str v ++ e ++ fs) <->
     bl = [] /\ i = O /\ rfc_target (method_str m) t /\ j = O /\ (v = V10 \/ v = V11) /\ e = CRLF /\ rfc_block fs).
Proof. exact accepted_request. Qed.
Print Assumptions C109_request.
Theorem C109_response : forall p l p' n, bytes_ok l -> resp_parse p l = (p', Ok n) ->
  exists bl v i c j r e fs hs rest,
    l = (bl ++ version_str v ++ spaces (S i) ++ three_digits c ++ spaces (S j) ++ r ++ e ++ fs) ++ rest /\
    n = blen (bl ++ version_str v ++ spaces (S i) ++ three_digits c ++ spaces (S j) ++ r ++ e ++ fs) /\
    blanks bl /\ In v known_versions /\ 100 <= c <= 999 /\ reason_ok r /\ (e = [CR; LF] \/ e = [LF]) /\ fields fs hs /\
    (rfc_response_octets (bl ++ version_str v ++ spaces (S i) ++ three_digits c ++ spaces (S j) ++ r ++ e ++ fs) <->
     bl = [] /\ (v = V10 \/ v = V11) /\ i = O /\ e = CRLF /\ rfc_block fs).
Proof. exact accepted_response. Qed.
Print Assumptions C109_response.
(** The header block conforms exactly if each of its lines does and the last line is CRLF; *)
Theorem C109_block : forall w n v ws, field w n v -> (rfc_block (w ++ ws) <-> rfc_line w /\ rfc_block ws).
Proof. exact block_cons. Qed.
Print Assumptions C109_block.
Theorem C109_block_end : rfc_block [CR; LF] /\ ~ rfc_block [LF].
Proof. exact block_end. Qed.
Print Assumptions C109_block_end.
(** a line exactly if there is no space in front of the colon and no control character in the value, *)
Theorem C109_line : forall n i j v, name_ok n -> value_ok v -> v <> [] ->
  (rfc_line (n ++ spaces i ++ COLON :: spaces j ++ v ++ CRLF) <-> i = O /\ Forall value_char v).
Proof. exact value_line. Qed.
Print Assumptions C109_line.
(** and, with an empty value, CRLF behind it. *)
Theorem C109_empty_line : forall n i j e, name_ok n -> eol e ->
  (rfc_line (n ++ spaces i ++ COLON :: spaces j ++ CR :: e) <-> i = O /\ e = [LF]).
Proof. exact empty_line. Qed.
Print Assumptions C109_empty_line.

(** RFC 9112 section 5.1 has a request with a space in front of a colon refused; RFC 9110 section 5.5 has CR, LF and NUL in values refused or replaced.
    Any octets but CR are taken, so that who takes a single LF for a line end sees other fields. *)
Theorem C109_values_refuted : forall v rest, value_ok v -> v <> [] ->
  req_parse req_default (request_text (str "GET") (str "/") (str "HTTP/1.1") [(str "X", v)] ++ rest) =
    (mkReq MGet V11 (mkUrl ScHttp (str "/") None None None (Some 0) None) [(str "X", v)] false, Ok (blen (request_text (str "GET") (str "/") (str "HTTP/1.1") [(str "X", v)]))).
Proof. exact any_value. Qed.
Print Assumptions C109_values_refuted.
Definition eol_of (s : bytes) : bytes := map (fun b => if b =? 124 then 10 else if b =? 94 then 13 else b) s.
(** ('|' stands for LF and '^' for CR.)  A field inside a field, a space in front of the colon, single LF and single SP for CRLF, two spaces, HTTP/2 as the version of a text. *)
Theorem C109_heads_refuted :
  map (fun s => (q_header (fst (req_parse req_default (eol_of (str s)))), snd (req_parse req_default (eol_of (str s)))))
    ["GET / HTTP/1.1^|X: a|Content-Length: 5^|^|"; "GET / HTTP/1.1^|X : a^|^|"; "GET / HTTP/1.1|X: a^||"; "GET / HTTP/1.1 X: a^|^|"; "GET  / HTTP/1.1^|^|"; "GET / HTTP/2^|^|"]%string =
  [([(str "X", eol_of (str "a|Content-Length: 5"))], Ok 42); ([(str "X", str "a")], Ok 25); ([(str "X", str "a")], Ok 22); ([(str "X", str "a")], Ok 23); ([], Ok 19); ([], Ok 16)] /\
  (forall s, In s ["GET / HTTP/1.1^|X: a|Content-Length: 5^|^|"; "GET / HTTP/1.1^|X : a^|^|"; "GET / HTTP/1.1|X: a^||"; "GET / HTTP/1.1 X: a^|^|"; "GET  / HTTP/1.1^|^|"; "GET / HTTP/2^|^|"]%string ->
   ~ rfc_request_octets (eol_of (str s))).
Proof.
  split; [vm_compute; reflexivity|]. intros s H.
  assert (Ht : word (str "/")) by (split; [discriminate|vlist]).
  assert (HX : name_ok (str "X")) by (split; [discriminate|cbn; repeat (apply Forall_cons; [unfold tchar, alpha, upper; lia|]); apply Forall_nil]).
  assert (Ha : value_ok (str "a")).
  { split; [apply bytes_okb_ok; reflexivity|]. split; [cbn; unfold CR; lia|discriminate]. }
  assert (Hl : value_ok (eol_of (str "a|Content-Length: 5"))).
  { split; [apply bytes_okb_ok; reflexivity|]. split; [vm_compute; intuition discriminate|discriminate]. }
  pose proof (field_value (str "X") 0 1 (str "a") HX Ha ltac:(discriminate)) as F0.
  pose proof (field_value (str "X") 1 1 (str "a") HX Ha ltac:(discriminate)) as F1.
  pose proof (field_value (str "X") 0 1 _ HX Hl ltac:(discriminate)) as F2.
  cbn in H. destruct H as [<-|[<-|[<-|[<-|[<-|[<-|[]]]]]]]; intros R.
  - apply (request_lax [] MGet 0 (str "/") 0 V11 CRLF _ _ bl_nil ltac:(cbn; auto 10) Ht ltac:(cbn; auto) eol_crlf (fs_cons _ _ _ _ _ F2 fs_crlf)) in R.
    destruct R as (_ & _ & _ & _ & _ & _ & R). apply (block_cons _ _ _ _ F2) in R as [R _]. apply value_line in R as [_ R]; [|assumption|assumption|discriminate].
    rewrite Forall_forall in R. specialize (R 10 ltac:(vm_compute; auto)). unfold value_char, field_vchar, vchar, blank, SP, TAB in R. lia.
  - apply (request_lax [] MGet 0 (str "/") 0 V11 CRLF _ _ bl_nil ltac:(cbn; auto 10) Ht ltac:(cbn; auto) eol_crlf (fs_cons _ _ _ _ _ F1 fs_crlf)) in R.
    destruct R as (_ & _ & _ & _ & _ & _ & R). apply (block_cons _ _ _ _ F1) in R as [R _]. apply value_line in R as [R _]; [discriminate|assumption|assumption|discriminate].
  - apply (request_lax [] MGet 0 (str "/") 0 V11 [LF] _ _ bl_nil ltac:(cbn; auto 10) Ht ltac:(cbn; auto) eol_lf (fs_cons _ _ _ _ _ F0 fs_lf)) in R.
    destruct R as (_ & _ & _ & _ & _ & R & _). discriminate.
  - apply (request_lax [] MGet 0 (str "/") 0 V11 [SP] _ _ bl_nil ltac:(cbn; auto 10) Ht ltac:(cbn; auto) eol_sp (fs_cons _ _ _ _ _ F0 fs_crlf)) in R.
    destruct R as (_ & _ & _ & _ & _ & R & _). discriminate.
  - apply (request_lax [] MGet 1 (str "/") 0 V11 CRLF _ _ bl_nil ltac:(cbn; auto 10) Ht ltac:(cbn; auto) eol_crlf fs_crlf) in R.
    destruct R as (_ & R & _). discriminate.
  - apply (request_lax [] MGet 0 (str "/") 0 V2 CRLF _ _ bl_nil ltac:(cbn; auto 10) Ht ltac:(cbn; auto) eol_crlf fs_crlf) in R.
    destruct R as (_ & _ & _ & _ & [R|R] & _); discriminate.
Qed.
Print Assumptions C109_heads_refuted.

(** A head that is accepted and conforms. *)
Example C109_example : exists q' n, req_parse req_default (eol_of (str "GET / HTTP/1.1^|X: a^|^|")) = (q', Ok n) /\ n = 24 /\
  rfc_request_octets (eol_of (str "GET / HTTP/1.1^|X: a^|^|")).
Proof.
  eexists _, _. split; [vm_compute; reflexivity|]. split; [reflexivity|].
  exists (str "GET"), (str "/"), (str "HTTP/1.1"), [mkLine (str "X") [SP] (str "a") []]. split; [|vm_compute; reflexivity].
  split; [split; [discriminate|cbn; repeat (apply Forall_cons; [unfold tchar, alpha, upper; lia|]); apply Forall_nil]|]. split; [apply (rt_origin _ [47] []); [constructor; constructor|constructor]|].
  split; [apply (rv_intro 49 49); unfold digit; lia|]. constructor; [|constructor].
  split; [split; [discriminate|cbn; constructor; [unfold tchar, alpha, upper; cbn; lia|constructor]]|]. split; [constructor; [left; reflexivity|constructor]|].
  split; [right; left; exists 97; split; [reflexivity|unfold field_vchar, vchar; lia]|]. split; [constructor|discriminate].
Qed.
