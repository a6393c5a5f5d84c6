(** C110: HTTP/2 frames and header lists as RFC 9113 has them, compared with what the frame reader makes of them. *)
From Coq Require Import Ascii String NArith ZArith Lia Bool List.
From Verif Require Import Base S_Utf8 P_Base M_Header M_Url M_Http1 S_Http1 S_Http1Api P_Msg M_Hpack S_Hpack S_HpackApi S_HpackAll P_HpackTable P_HpackCodec P_HpackSync P_HpackExact
  M_Frame M_H2 S_Frame S_H2Api S_Build S_FrameAll P_FrameAll S_Rfc9113 P_Rfc9113.
Import ListNotations.
Local Open Scope N_scope.

(** DATA, PRIORITY, RST_STREAM, SETTINGS, PING, GOAWAY and WINDOW_UPDATE: a frame of the RFC is read as what it means
    exactly if no bit but the flags of the crate is set and the flag PADDED finds nothing to remove. *)
Theorem C110_read : forall t L ty fl r id p rest f, decoder_reach t -> bytes_ok (frame_octets ty fl (r * 2147483648 + id) p ++ rest) ->
  blen p < 16777216 -> r <= 1 -> id < 2147483648 -> rfc_frame ty fl id p f ->
  (recv t L (frame_octets ty fl (r * 2147483648 + id) p ++ rest) = (t, Ok (f, rest)) <-> defined_flags fl /\ pad_free ty fl p).
Proof. intros t L ty fl r id p rest f D. apply rfc_frame_read, reach_inv, D. Qed.
Print Assumptions C110_read.
(** Those that are accepted are frames of the RFC exactly if they also are as strict as it asks. *)
Theorem C110_strict : forall t L ty fl r id p rest t' f, decoder_reach t -> bytes_ok (frame_octets ty fl (r * 2147483648 + id) p ++ rest) ->
  blen p < 16777216 -> r <= 1 -> id < 2147483648 -> ty <> 1 -> ty <> 5 ->
  recv t L (frame_octets ty fl (r * 2147483648 + id) p ++ rest) = (t', Ok (f, rest)) ->
  ((exists g, rfc_frame ty fl id p g) <-> strict_frame ty fl id p).
Proof. intros t L ty fl r id p rest t' f D. apply rfc_frame_strict, reach_inv, D. Qed.
Print Assumptions C110_strict.
(** Header lists of 8.3: the parts and fields of the crate are those that are meant exactly if the texts are UTF-8, the
    method is one of the nine, the scheme short, the status from 100 and no name repeated. *)
Theorem C110_header_list : forall ps hs p, rfc_header_list ps hs p -> (header_list (ps ++ hs) hs p <-> plain_list ps hs).
Proof. exact rfc_list_iff. Qed.
Print Assumptions C110_header_list.
(** HEADERS with its whole block, in the HPACK of the RFC as far as the decoder knows it (C62). *)
Theorem C110_headers : forall t L fl r id p od block ps hs pt dyn rest, decoder_reach t ->
  bytes_ok (frame_octets 1 fl (r * 2147483648 + id) p ++ rest) -> blen p < 16777216 -> r <= 1 -> id < 2147483648 ->
  rfc_headers fl p od block ->
  block_repr rfc_lookup (fun i => i < 127 /\ i <> 15) (fun i => i <> 15) (hi_max t) (hi_table t) block (ps ++ hs) dyn ->
  rfc_header_list ps hs pt ->
  (recv t L (frame_octets 1 fl (r * 2147483648 + id) p ++ rest) =
     (mkIdx dyn (total_size dyn) (hi_max t), Ok (FHeaders (mkHeaders id od hs pt fl), rest)) <->
   defined_flags fl /\ (flag_on fl 3 -> hd_error p = Some 0) /\ total_size (ps ++ hs) <= L /\ plain_list ps hs).
Proof. exact rfc_headers_meant. Qed.
Print Assumptions C110_headers.

(** ** Where the reader departs from the RFC *)
(** Padding is kept: n zeros stay at the end of the data. *)
Theorem C110_padding_refuted : forall t L fl r id n d rest, decoder_reach t -> defined_flags fl -> flag_on fl 3 -> r <= 1 -> 0 < id < 2147483648 ->
  n < 256 -> bytes_ok (d ++ rest) -> blen d + 256 < 16777216 ->
  rfc_frame 0 fl id (n :: d ++ repeat 0 (N.to_nat n)) (FData (mkData id d fl)) /\
  recv t L (frame_octets 0 fl (r * 2147483648 + id) (n :: d ++ repeat 0 (N.to_nat n)) ++ rest) = (t, Ok (FData (mkData id (d ++ repeat 0 (N.to_nat n)) fl), rest)).
Proof. exact padding_kept. Qed.
Print Assumptions C110_padding_refuted.
(** 4.1: flags without meaning are to be ignored; every frame with one of the bits 2, 16, 64 and 128 is refused. *)
Theorem C110_flags_refuted : forall t L ty fl r id p rest t' f, decoder_reach t -> bytes_ok (frame_octets ty fl (r * 2147483648 + id) p ++ rest) ->
  blen p < 16777216 -> r <= 1 -> id < 2147483648 -> N.land fl 210 <> 0 ->
  recv t L (frame_octets ty fl (r * 2147483648 + id) p ++ rest) <> (t', Ok (f, rest)).
Proof. exact odd_flags. Qed.
Print Assumptions C110_flags_refuted.
(** 5.5: frames of unknown types are to be ignored; they are refused, and so is every CONTINUATION. *)
Theorem C110_types_refuted : forall t L ty fl r id p rest t' f, decoder_reach t -> bytes_ok (frame_octets ty fl (r * 2147483648 + id) p ++ rest) ->
  blen p < 16777216 -> r <= 1 -> id < 2147483648 -> 9 <= ty ->
  recv t L (frame_octets ty fl (r * 2147483648 + id) p ++ rest) <> (t', Ok (f, rest)).
Proof. exact odd_types. Qed.
Print Assumptions C110_types_refuted.
(** Accepted although the RFC has a connection error: PRIORITY with a longer payload, RST_STREAM, PRIORITY and HEADERS on
    stream 0, GOAWAY on another stream, PING with nine octets and the flag PADDED, and a PUSH_PROMISE without content. *)
Theorem C110_strict_refuted : forall t, decoder_reach t ->
  recv t 100 (frame_octets 2 0 1 [0; 0; 0; 3; 7; 7]) = (t, Ok (FPriority (mkPriority 1 (mkDep 3 7 false)), [])) /\ ~ strict_frame 2 0 1 [0; 0; 0; 3; 7; 7] /\
  recv t 100 (frame_octets 2 0 0 [0; 0; 0; 3; 7]) = (t, Ok (FPriority (mkPriority 0 (mkDep 3 7 false)), [])) /\ ~ strict_frame 2 0 0 [0; 0; 0; 3; 7] /\
  recv t 100 (frame_octets 3 0 0 [0; 0; 0; 8]) = (t, Ok (FReset (mkReset 0 8), [])) /\ ~ strict_frame 3 0 0 [0; 0; 0; 8] /\
  recv t 100 (frame_octets 7 0 5 [0; 0; 0; 1; 0; 0; 0; 0]) = (t, Ok (FGoAway (mkGoAway 1 0 []), [])) /\ ~ strict_frame 7 0 5 [0; 0; 0; 1; 0; 0; 0; 0] /\
  recv t 100 (frame_octets 6 8 0 [0; 1; 2; 3; 4; 5; 6; 7; 8]) = (t, Ok (FPing (mkPing false [1; 2; 3; 4; 5; 6; 7; 8]), [])) /\
  ~ strict_frame 6 8 0 [0; 1; 2; 3; 4; 5; 6; 7; 8] /\
  recv hi_new 100 (frame_octets 1 4 0 [136]) = (hi_new, Ok (FHeaders (mkHeaders 0 None [] (mkParts None None None None (Some 200)) 4), [])) /\
  recv t 100 (frame_octets 5 4 1 []) = (t, Ok (FPushPromise (mkPush 1 0 [] parts_default 4), [])).
Proof.
  intros t D. repeat match goal with |- _ /\ _ => split end; try (vm_compute; reflexivity); try (cbv; intuition congruence).
Qed.
Print Assumptions C110_strict_refuted.
(** A conforming list that is not read as meant: an extension method, a status below 100, a repeated field. *)
Theorem C110_header_list_refuted :
  (exists p, rfc_header_list [(str ":method", str "PROPFIND")] [] p) /\ ~ plain_list [(str ":method", str "PROPFIND")] [] /\
  (exists p, rfc_header_list [(str ":status", str "099")] [] p) /\ ~ plain_list [(str ":status", str "099")] [] /\
  (exists p, rfc_header_list [] [(str "cookie", str "a"); (str "cookie", str "b")] p) /\ ~ plain_list [] [(str "cookie", str "a"); (str "cookie", str "b")].
Proof. exact odd_lists. Qed.
Print Assumptions C110_header_list_refuted.

(** ** The hypotheses can be met *)
Example C110_nonvacuous : decoder_reach hi_new /\
  rfc_frame 0 9 7 (0 :: str "hello") (FData (mkData 7 (str "hello") 9)) /\ defined_flags 9 /\ pad_free 0 9 (0 :: str "hello") /\
  recv hi_new 0 (frame_octets 0 9 (1 * 2147483648 + 7) (0 :: str "hello") ++ str "x") = (hi_new, Ok (FData (mkData 7 (str "hello") 9), str "x")) /\
  rfc_frame 8 0 3 [0; 0; 1; 0] (FWindowUpdate (mkWin 3 256)) /\
  recv hi_new 0 (frame_octets 8 0 3 [0; 0; 1; 0]) = (hi_new, Ok (FWindowUpdate (mkWin 3 256), [])).
Proof.
  repeat match goal with |- _ /\ _ => split end; try (vm_compute; reflexivity).
  - constructor.
  - apply rf_data; [discriminate|]. apply (rp_pad 9 0 (str "hello")); reflexivity.
  - exists true, false, true, false. reflexivity.
  - intros _. right. auto.
  - apply (rf_window 0 3 0 256); lia.
Qed.
Definition c110_list : list hfield := [(str ":method", str "GET"); (str ":scheme", str "https"); (str ":path", str "/"); (str ":authority", str "h")].
Definition c110_parts : parts := mkParts (Some MGet) (Some ScHttps) (Some (str "h")) (Some (str "/")) None.
Example C110_headers_nonvacuous :
  rfc_headers 45 (0 :: dep_octets (mkDep 3 15 false) ++ [130; 135; 132; 65; 1; 104; 0; 1; 97; 1; 98]) (Some (mkDep 3 15 false)) [130; 135; 132; 65; 1; 104; 0; 1; 97; 1; 98] /\
  block_repr rfc_lookup (fun i => i < 127 /\ i <> 15) (fun i => i <> 15) 4096 [] [130; 135; 132; 65; 1; 104; 0; 1; 97; 1; 98]
    (c110_list ++ [(str "a", str "b")]) [(str ":authority", str "h")] /\
  rfc_header_list c110_list [(str "a", str "b")] c110_parts /\ plain_list c110_list [(str "a", str "b")] /\ defined_flags 45 /\
  recv hi_new 1000 (frame_octets 1 45 5 (0 :: dep_octets (mkDep 3 15 false) ++ [130; 135; 132; 65; 1; 104; 0; 1; 97; 1; 98])) =
    (mkIdx [(str ":authority", str "h")] 43 4096, Ok (FHeaders (mkHeaders 5 (Some (mkDep 3 15 false)) [(str "a", str "b")] c110_parts 45), [])).
Proof.
  repeat match goal with |- _ /\ _ => split end; try (vm_compute; reflexivity).
  - apply rh_prio; [reflexivity|split; reflexivity|]. apply (rp_pad 45 0 (dep_octets (mkDep 3 15 false) ++ [130; 135; 132; 65; 1; 104; 0; 1; 97; 1; 98])); reflexivity.
  - apply (b_cons _ _ _ _ [] [130] _ [] _ _ _); [apply (f_indexed _ _ _ _ _ 2); [lia|apply (int_short 7 128 2); reflexivity|reflexivity]|].
    apply (b_cons _ _ _ _ [] [135] _ [] _ _ _); [apply (f_indexed _ _ _ _ _ 7); [lia|apply (int_short 7 128 7); reflexivity|reflexivity]|].
    apply (b_cons _ _ _ _ [] [132] _ [] _ _ _); [apply (f_indexed _ _ _ _ _ 4); [lia|apply (int_short 7 128 4); reflexivity|reflexivity]|].
    apply (b_cons _ _ _ _ [] [65; 1; 104] _ [(str ":authority", str "h")] _ _ _).
    { apply (f_inc_indexed _ _ _ 4096 [] 1 [65] (str ":authority", []) (str "h") [1; 104]); [lia|apply (int_short 6 64 1); reflexivity|cbn; lia|reflexivity|].
      apply (str_raw [1] (str "h")); [apply (int_short 7 0 1); reflexivity|cbn; lia|apply bytes_okb_ok; reflexivity]. }
    apply (b_cons _ _ _ _ _ [0; 1; 97; 1; 98] _ [(str ":authority", str "h")] [] [] _); [|constructor].
    apply (f_lit_new _ _ _ 4096 _ 0 (str "a") [1; 97] (str "b") [1; 98]); [auto|apply utf8_valid_iff; reflexivity|..];
      [apply (str_raw [1] (str "a"))|apply (str_raw [1] (str "b"))]; first [apply (int_short 7 0 1); reflexivity|cbn; lia|apply bytes_okb_ok; reflexivity].
  - unfold rfc_header_list. repeat match goal with |- _ /\ _ => split end; try (eexists; split; [|reflexivity]; reflexivity).
    + repeat (apply Forall_cons; [cbn; auto 10|]). apply Forall_nil.
    + repeat constructor; cbn; intuition discriminate.
    + constructor; [|constructor]. cbn [fst]. change (str "a") with [97]. lowers.
    + eexists. split; [|reflexivity]. left. exists "GET"%string. split; [cbn; auto|reflexivity].
    + reflexivity.
  - unfold plain_list. repeat match goal with |- _ /\ _ => split end; try (intros v [= <-]); try (intros v K; discriminate K).
    + apply utf8_valid_iff; reflexivity.
    + exists MGet, "GET"%string. split; [cbn; auto|reflexivity].
    + apply utf8_valid_iff; reflexivity.
    + split; [apply utf8_valid_iff; reflexivity|cbv; discriminate].
    + constructor; constructor.
  - exists true, true, true, true. reflexivity.
Qed.
