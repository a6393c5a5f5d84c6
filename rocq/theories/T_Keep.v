(** C138: how much a receiver can be made to keep. *)
From Coq Require Import Ascii String NArith ZArith Lia Bool List ZifyBool ZifyNat ZifyN.
From Verif Require Import Base P_Base M_Std M_Helper M_Header M_Url M_Http1 S_Http1 S_Http1Api P_Http1 P_Msg S_Stream M_Ws S_Ws S_WsApi S_WsTalk
  M_Hpack M_Frame M_H2 S_H2Api S_Packets P_Packets S_Net P_Net S_Keep P_Keep.
Import ListNotations.
Local Open Scope N_scope.

(** HTTP/2: with any table and header limit, at most a frame of the largest size without its last octet; and that much. *)
Theorem C138_http2 : forall L t n, can_keep (h2_step L) t n <-> n <= 2 ^ 24 + 7.
Proof.
  intros L t n. split.
  - intros K. destruct (keep_some _ (h2_steady L) _ _ K) as (t' & l & B & W & <-). exact (h2_wait_less L t' l B W).
  - intros H. destruct (h2_wait_most L t) as (l & B & W & E). apply (keep_less _ (h2_steady L) t l n B W). rewrite E. exact H.
Qed.
Print Assumptions C138_http2.
(** WebSocket: the limit of the reader bounds what is kept, exactly by [most]; without one the bound is that of the length field. *)
Theorem C138_websocket : forall limit n, can_keep (frame_step limit) tt n <-> n <= most (payload_limit limit).
Proof.
  intros limit n. split.
  - intros K. destruct (keep_some _ (frame_steady limit) _ _ K) as (t' & l & B & W & <-). exact (frame_wait_less limit t' l B W).
  - intros H. destruct (frame_wait_most limit tt) as (l & B & W & E). apply (keep_less _ (frame_steady limit) tt l n B W). rewrite E. exact H.
Qed.
Print Assumptions C138_websocket.
Theorem C138_limit : forall lim n, can_keep (frame_step (Some lim)) tt n -> n <= lim + 13.
Proof.
  intros lim n K. apply C138_websocket in K. unfold most, payload_limit in K. unfold header_size in K. destruct (N.min lim (2 ^ 64 - 1) <? 126), (N.min lim (2 ^ 64 - 1) <? 65536); lia.
Qed.
Print Assumptions C138_limit.
(** HTTP/1: there is no bound. Of a good request, or response, any number of octets is kept. *)
Theorem C138_requests : forall n, exists l x q, bytes_ok (l ++ x) /\ blen l = n /\
  feed request_step (Open tt []) [l] = ([], Open tt l) /\ feed request_step (Open tt []) [l; x] = ([(q, [])], Open tt []).
Proof.
  intros n. destruct (long_bytes n) as (B & _ & L & _). destruct (long_request_parsed n req_default) as (u & P).
  destruct (cut_waits parse_request q_header (message_steady _ _ request_head) (long_request n) (mkReq MGet V11 u (long_fields n) false) [] n B) as (l & x & K).
  - unfold parse_request. rewrite P. reflexivity.
  - cbv - [letters]. reflexivity.
  - exact L.
  - intros p s E S. unfold parse_request. pose proof (req_prefix _ _ _ _ p s P E S) as R. destruct (req_parse req_default p) as [q r]. cbn [snd] in R. rewrite R. reflexivity.
  - exists l, x. eexists. exact K.
Qed.
Print Assumptions C138_requests.
Theorem C138_responses : forall n, exists l x p, bytes_ok (l ++ x) /\ blen l = n /\
  feed response_step (Open tt []) [l] = ([], Open tt l) /\ feed response_step (Open tt []) [l; x] = ([(p, [])], Open tt []).
Proof.
  intros n. destruct (long_bytes n) as (_ & B & _ & L). pose proof (long_response_parsed n resp_default) as P.
  destruct (cut_waits parse_response p_header (message_steady _ _ response_head) (long_response n) (mkResp 200 V11 (long_fields n) false) [] n B) as (l & x & K).
  - unfold parse_response. rewrite P. reflexivity.
  - cbv - [letters]. reflexivity.
  - exact L.
  - intros p s E S. unfold parse_response. pose proof (resp_prefix _ _ _ _ p s B P E S) as R. destruct (resp_parse resp_default p) as [q r]. cbn [snd] in R. rewrite R. reflexivity.
  - exists l, x. eexists. exact K.
Qed.
Print Assumptions C138_responses.
(** WebSocket messages: the limit is one of a frame. With any limit but 0 the fragments of a message that is not finished can have any size together. *)
Theorem C138_fragments : forall limit n, limit <> Some 0 -> exists w got d r, bytes_ok w /\
  feed (talk_step limit) (Open [] []) [w] = (got, Open (d :: r) []) /\ concat got = [] /\ blen (concat (map d_data (d :: r))) = N.succ n /\
  opcode_u8 (d_op d) = 2 /\ Forall (fun f => opcode_u8 (d_op f) = 0) r /\ Forall (fun f => d_rsv f = (false, false, false) /\ d_fin f = false) (d :: r).
Proof.
  intros limit n L. destruct (fragments_taken limit n) as (w & got & ds & B & A & G & N & d & r & -> & O & F & R).
  { intros lim ->. destruct (N.eq_dec lim 0); [congruence|lia]. }
  exists w, got, d, r. rewrite (all_one (talk_step limit) (talk_steady limit) [] w B), A. auto 10.
Qed.
Print Assumptions C138_fragments.

(** ** Concrete cases *)
Example C138_bounds : most (payload_limit (Some 100)) = 105 /\ most (payload_limit (Some 0)) = 13 /\ most (payload_limit (Some 1000)) = 1007 /\
  most (payload_limit (Some 1000000)) = 1000013 /\ most (payload_limit None) = 2 ^ 64 + 12.
Proof. repeat split. Qed.
Example C138_kept : feed (frame_step (Some 3)) (Open tt []) [[129; 2; 104]; [105; 130; 131; 1; 2]; [3; 4; 9; 9]] =
  ([{| d_fin := true; d_rsv := (false, false, false); d_op := OText; d_data := str "hi" |}], Open tt [130; 131; 1; 2; 3; 4; 9; 9]).
Proof. vm_compute. reflexivity. Qed.
