(** C98: the language of the HTTP/2 frame reader. *)
From Coq Require Import Ascii String NArith ZArith Lia Bool List.
From Verif Require Import Base S_Utf8 P_Base M_Header M_Url M_Http1 S_Http1 S_Http1Api P_Msg M_Hpack S_Hpack S_HpackApi S_HpackAll P_HpackSync P_HpackExact M_Frame M_H2 S_Frame S_H2Api S_Build S_FrameAll P_FrameAll.
Import ListNotations.
Local Open Scope N_scope.

(** The octets that are read as a frame, and the frame and table they give: exactly those of the grammar, whatever
    follows them, on every connection. *)
Theorem C98_exact : forall t L l t' f rest, decoder_reach t -> bytes_ok l ->
  (recv t L l = (t', Ok (f, rest)) <-> exists a, l = a ++ rest /\ one_frame L t a f t').
Proof. intros t L l t' f rest R B. apply recv_iff; [apply reach_inv, R|exact B]. Qed.
Print Assumptions C98_exact.
(** The same for all frames of a connection. *)
Theorem C98_stream : forall t L l t' fs, decoder_reach t -> bytes_ok l -> (received L t l t' fs <-> frames L t l fs t').
Proof. intros t L l t' fs. apply received_iff. Qed.
Print Assumptions C98_stream.
(** So the grammar is unambiguous: octets are one frame in at most one way, and no frame starts another one. *)
Theorem C98_unambiguous : forall t L a b rest rest' f g t1 t2, decoder_reach t -> bytes_ok (a ++ rest) ->
  one_frame L t a f t1 -> one_frame L t b g t2 -> a ++ rest = b ++ rest' -> a = b /\ rest = rest' /\ f = g /\ t1 = t2.
Proof.
  intros t L a b rest rest' f g t1 t2 R B F G E.
  assert (X : recv t L (a ++ rest) = (t1, Ok (f, rest))) by (apply C98_exact; [exact R|exact B|eauto]).
  assert (Y : recv t L (a ++ rest) = (t2, Ok (g, rest'))) by (apply C98_exact; [exact R|exact B|eauto]).
  rewrite X in Y. injection Y as -> -> ->. apply app_inv_tail in E. auto.
Qed.
Print Assumptions C98_unambiguous.
(** What a header list means: readable pseudo headers, each with its last value, and the other fields in a header map. *)
Theorem C98_header_list : forall L h d fs hf,
  hdr_collect L 0 (mkHeaders (fh_id h) d [] parts_default (fh_flag h)) fs = (hf, Ok tt) <->
  total_size fs <= L /\ exists hs p, header_list fs hs p /\ hf = mkHeaders (fh_id h) d hs p (fh_flag h).
Proof. intros L h d fs hf. rewrite hdr_collect_ok, header_list_iff. reflexivity. Qed.
Print Assumptions C98_header_list.

(** A priority prefix, a repeated :path, an unknown pseudo header, a repeated field; and a table that grows. *)
Definition c98_block : bytes := [130; 68; 2; 47; 97; 132; 0; 2; 58; 120; 1; 49; 64; 1; 97; 1; 98; 0; 1; 97; 1; 99].
Example C98_nonvacuous : decoder_reach hi_new /\
  recv hi_new 1000 (frame_octets 1 36 (2147483648 + 5) (dep_octets (mkDep 3 15 true) ++ c98_block) ++ [7]) =
    (mkIdx [(str "a", str "b"); (str ":path", str "/a")] 73 4096,
     Ok (FHeaders (mkHeaders 5 (Some (mkDep 3 15 true)) [(str ":x", str "1"); (str "a", str "c")] (mkParts (Some MGet) None None (Some (str "/")) None) 36), [7])) /\
  one_frame 1000 hi_new (frame_octets 1 36 (2147483648 + 5) (dep_octets (mkDep 3 15 true) ++ c98_block))
    (FHeaders (mkHeaders 5 (Some (mkDep 3 15 true)) [(str ":x", str "1"); (str "a", str "c")] (mkParts (Some MGet) None None (Some (str "/")) None) 36))
    (mkIdx [(str "a", str "b"); (str ":path", str "/a")] 73 4096).
Proof.
  assert (E : recv hi_new 1000 (frame_octets 1 36 (2147483648 + 5) (dep_octets (mkDep 3 15 true) ++ c98_block) ++ [7]) =
    (mkIdx [(str "a", str "b"); (str ":path", str "/a")] 73 4096,
     Ok (FHeaders (mkHeaders 5 (Some (mkDep 3 15 true)) [(str ":x", str "1"); (str "a", str "c")] (mkParts (Some MGet) None None (Some (str "/")) None) 36), [7])))
    by (vm_compute; reflexivity).
  split; [constructor|]. split; [exact E|].
  apply C98_exact in E as (a & H & O); [|constructor|apply bytes_okb_ok; vm_compute; reflexivity].
  apply app_inv_tail in H. rewrite H. exact O.
Qed.
Example C98_frames : forall t, decoder_reach t -> 
  received 100 t (frame_octets 5 0 1 [9; 9; 9] ++ frame_octets 6 8 0 [1; 1; 2; 3; 4; 5; 6; 7; 8]) t
    [FPushPromise (mkPush 1 0 [] parts_default 0); FPing (mkPing false [1; 2; 3; 4; 5; 6; 7; 8])] /\
  frames 100 t (frame_octets 5 0 1 [9; 9; 9] ++ frame_octets 6 8 0 [1; 1; 2; 3; 4; 5; 6; 7; 8])
    [FPushPromise (mkPush 1 0 [] parts_default 0); FPing (mkPing false [1; 2; 3; 4; 5; 6; 7; 8])] t.
Proof.
  intros t R. assert (H : received 100 t (frame_octets 5 0 1 [9; 9; 9] ++ frame_octets 6 8 0 [1; 1; 2; 3; 4; 5; 6; 7; 8]) t
    [FPushPromise (mkPush 1 0 [] parts_default 0); FPing (mkPing false [1; 2; 3; 4; 5; 6; 7; 8])]).
  { eapply rc_cons; [vm_compute; reflexivity|]. eapply rc_cons; [vm_compute; reflexivity|]. constructor. }
  split; [exact H|]. apply C98_stream; [exact R|apply bytes_okb_ok; vm_compute; reflexivity|exact H].
Qed.
