(** C124: frames of HTTP/2 that are received and sent on. *)
From Coq Require Import Ascii String NArith ZArith Lia Bool List Permutation ZifyBool ZifyNat ZifyN.
From Verif Require Import Base S_Utf8 P_Base M_Header M_Url M_Http1 S_Http1 S_Http1Api P_Msg M_Hpack S_Hpack S_HpackApi S_HpackAll P_HpackSync S_Frame P_Frame M_Frame M_H2 S_H2Api S_FrameAll P_FrameAll S_Rfc9113 P_Rfc9113 T_Rfc9113
  S_WriteAll P_WriteAll T_WriteAll S_RfcFrames P_RfcFrames T_RfcFrames S_RfcOn P_RfcOn.
Import ListNotations.
Local Open Scope N_scope.

(** A conforming frame without a header block that the crate reads as meant (C110), written again for any receiver, tells it the same frame exactly
    if it is not PRIORITY, is not DATA with the flag PADDED, and, if it is GOAWAY, is not longer than the receiver allows. *)
Theorem C124_frame : forall t L ty fl r id p rest f room max dyn, decoder_reach t -> bytes_ok (frame_octets ty fl (r * 2147483648 + id) p ++ rest) ->
  blen p < 16777216 -> r <= 1 -> id < 2147483648 -> rfc_frame ty fl id p f -> defined_flags fl -> pad_free ty fl p -> room_ok room -> table_typed max dyn ->
  recv t L (frame_octets ty fl (r * 2147483648 + id) p ++ rest) = (t, Ok (f, rest)) /\
  (sent_on room max dyn f <-> ty <> 2 /\ ~ (ty = 0 /\ flag_on fl 3) /\ (ty = 7 -> blen p <= room)).
Proof.
  intros t L ty fl r id p rest f room max dyn D Hb LP R LI RF DF PF RO TT. split; [apply C110_read; auto|]. exact (frame_on ty fl id p f room max dyn LP LI RF RO TT).
Qed.
Print Assumptions C124_frame.
(** HEADERS with its whole block, without padding and priority: exactly if there are no pseudo header fields (so, trailers), no field is called
    "accept-", the pieces that are made (C107) are short enough, and there is only one if the stream ends. *)
Theorem C124_headers : forall t L fl r id p block ps hs pt dyn rest room max dyn2 t2 b, decoder_reach t ->
  bytes_ok (frame_octets 1 fl (r * 2147483648 + id) p ++ rest) -> blen p < 16777216 -> r <= 1 -> 1 <= id < 2147483648 -> rfc_headers fl p None block ->
  block_repr rfc_lookup (fun i => i < 127 /\ i <> 15) (fun i => i <> 15) (hi_max t) (hi_table t) block (ps ++ hs) dyn -> rfc_header_list ps hs pt ->
  defined_flags fl -> ~ flag_on fl 3 -> total_size (ps ++ hs) <= L -> plain_list ps hs ->
  room_ok room -> table_typed max dyn2 -> Forall (fun f => Forall h2_char (fst f)) dyn2 -> Forall sendable hs -> Forall (fun f => ~ In 94 (fst f)) hs ->
  let h := mkHeaders id None hs pt fl in
  frame_encode room (table_of max dyn2) (FHeaders h) = Ok (t2, b) -> blen b < 16777216 ->
  recv t L (frame_octets 1 fl (r * 2147483648 + id) p ++ rest) = (mkIdx dyn (total_size dyn) (hi_max t), Ok (FHeaders h, rest)) /\
  (conforms room max (map lower_field dyn2) (FHeaders h) b (map lower_field (hi_to_vec t2)) <->
   ps = [] /\ (forall f, In f hs -> fst f <> str "accept-") /\
   exists cs d, pieces room max dyn2 hs [] cs d /\ Forall (fun c => blen c <= room) cs /\ (flag_on fl 0 -> length cs = 1%nat)).
Proof.
  intros t L fl r id p block ps hs pt dyn rest room max dyn2 t2 b D Hb LP R I RH BR HL DF N3 TS PL RO TT HC SD NC h E LB. split.
  - apply (proj2 (C110_headers t L fl r id p None block ps hs pt dyn rest D Hb LP R ltac:(lia) RH BR HL)). split; [exact DF|]. split; [intros K; contradiction|]. split; [exact TS|exact PL].
  - apply (headers_on room max dyn2 ps hs pt id fl t2 b); try assumption. inversion RH; assumption.
Qed.
Print Assumptions C124_headers.

(** So no request and no response is sent on by writing the frame that was read. *)
Theorem C124_message_refuted : forall room max dyn ps hs pt id fl t b, rfc_header_list ps hs pt -> ps <> [] -> room_ok room -> table_typed max dyn ->
  1 <= id < 2147483648 -> ~ flag_on fl 3 -> ~ flag_on fl 5 -> Forall sendable hs -> let h := mkHeaders id None hs pt fl in
  frame_encode room (table_of max dyn) (FHeaders h) = Ok (t, b) -> blen b < 16777216 -> forall peer', ~ conforms room max (map lower_field dyn) (FHeaders h) b peer'.
Proof.
  intros room max dyn ps hs pt id fl t b HL PS [R1 R2] TT I N3 N5 SD h E LB peer'. apply (C118_parts_refuted room max dyn h t b); try assumption; [|cbn; auto|].
  - split; [unfold u32; cbn; lia|]. eapply Forall_impl; [|exact SD]. intros f (A & B & _). split; [|exact B]. eapply Forall_impl; [|exact A]. intros x X. unfold byte_ok. cbn in X. lia.
  - right. intros K. apply PS, (parts_none ps hs pt HL), K.
Qed.
Print Assumptions C124_message_refuted.
(** The flag PADDED is kept, while the octet that it stands for is not written: the first octet of the data is taken for the number of zeros at its
    end.  A DATA frame without any padding, but with the flag, becomes one with other data. *)
Theorem C124_padded_refuted : forall t L fl id n d rest room max dyn, decoder_reach t -> defined_flags fl -> flag_on fl 3 -> 1 <= id < 2147483648 -> n < 256 ->
  bytes_ok d -> bytes_ok rest -> room_ok room -> table_typed max dyn -> let l := n :: d ++ repeat 0 (N.to_nat n) in blen l <= room -> blen l < 16777215 ->
  rfc_frame 0 fl id (0 :: l) (FData (mkData id l fl)) /\
  recv t L (frame_octets 0 fl id (0 :: l) ++ rest) = (t, Ok (FData (mkData id l fl), rest)) /\
  frame_encode room (table_of max dyn) (FData (mkData id l fl)) = Ok (table_of max dyn, frame_octets 0 fl id l) /\
  rfc_frame 0 fl id l (FData (mkData id d fl)).
Proof.
  intros t L fl id n d rest room max dyn D DF F3 I Hn Bd Br [R1 R2] TT l LR LL.
  assert (RF : rfc_frame 0 fl id (0 :: l) (FData (mkData id l fl))).
  { apply rf_data; [lia|]. replace (0 :: l) with (0 :: l ++ repeat 0 (N.to_nat 0)) by (rewrite app_nil_r; reflexivity). apply rp_pad; [exact F3|lia]. }
  assert (RF2 : rfc_frame 0 fl id l (FData (mkData id d fl))) by (apply rf_data; [lia|apply rp_pad; assumption]).
  assert (BL : bytes_ok l). { apply Forall_cons; [exact Hn|]. apply Forall_app. split; [exact Bd|]. apply Forall_forall. intros x X. apply repeat_spec in X. subst x. unfold byte_ok. lia. }
  split; [exact RF|]. split; [|split; [|exact RF2]].
  - pose proof (C110_read t L 0 fl 0 id (0 :: l) rest (FData (mkData id l fl)) D) as K. change (0 * 2147483648 + id) with id in K. apply K; try assumption; [|rewrite blen_cons; lia|lia|lia|split; [exact DF|intros _; right; auto]].
    unfold frame_octets, header_octets. apply Forall_app. split; [|exact Br]. apply Forall_app. split; [|apply Forall_cons; [unfold byte_ok; lia|exact BL]].
    apply bytes_ok_app. split; [apply octets3_ok; rewrite blen_cons; lia|]. apply Forall_cons; [unfold byte_ok; lia|]. apply Forall_cons; [|apply octets4_ok; lia].
    destruct DF as (a1 & a2 & a3 & a4 & ->). unfold byte_ok. destruct a1, a2, a3, a4; vm_compute; reflexivity.
  - apply (proj2 (frame_all room max dyn (FData (mkData id l fl)) (table_of max dyn) (frame_octets 0 fl id l) TT ltac:(cbn; unfold u32; lia))). exists dyn. split; [reflexivity|].
    assert (X := frw_data room max dyn (mkData id l fl) [] l eq_refl (or_intror eq_refl) (Forall_nil _) LR (fun H => H)). cbn [map concat app da_flags da_id] in X.
    unfold framed in X. rewrite N.mod_small in X by lia. exact X.
Qed.
Print Assumptions C124_padded_refuted.
(** PRIORITY never arrives. *)
Theorem C124_priority_refuted : forall fl id p f room max dyn, blen p < 16777216 -> id < 2147483648 -> rfc_frame 2 fl id p f -> room_ok room -> table_typed max dyn -> ~ sent_on room max dyn f.
Proof. intros fl id p f room max dyn LP LI RF RO TT K. apply (frame_on 2 fl id p f room max dyn LP LI RF RO TT) in K. lia. Qed.
Print Assumptions C124_priority_refuted.

(** The conditions are met: a DATA frame with END_STREAM, a GOAWAY frame with the debug data "abc", and trailers. *)
Example C124_frame_met : decoder_reach hi_new /\ table_typed 4096 [] /\ room_ok 16384 /\
  rfc_frame 0 1 7 (str "hello") (FData (mkData 7 (str "hello") 1)) /\ defined_flags 1 /\ pad_free 0 1 (str "hello") /\ ~ flag_on 1 3 /\
  rfc_frame 7 0 0 (octets4 5 ++ octets4 2 ++ str "abc") (FGoAway (mkGoAway 5 2 (str "abc"))) /\ blen (octets4 5 ++ octets4 2 ++ str "abc") <= 16384.
Proof.
  split; [exact (dr_new 4096)|]. split; [apply C107_tables|]. split; [unfold room_ok; lia|]. split; [apply rf_data; [lia|apply rp_plain; discriminate]|].
  split; [exists true, false, false, false; reflexivity|]. split; [discriminate|]. split; [discriminate|]. split; [|vm_compute; discriminate].
  change (octets4 5) with (octets4 (0 * 2147483648 + 5)). apply rf_goaway; lia.
Qed.
Definition a_trailer : list hfield := [(str "a", str "b")].
Example C124_headers_met : exists cs d b t2, rfc_headers 5 [0; 1; 97; 1; 98] None [0; 1; 97; 1; 98] /\
  block_repr rfc_lookup (fun i => i < 127 /\ i <> 15) (fun i => i <> 15) 4096 [] [0; 1; 97; 1; 98] ([] ++ a_trailer) [] /\ rfc_header_list [] a_trailer parts_default /\
  defined_flags 5 /\ plain_list [] a_trailer /\ Forall sendable a_trailer /\ pieces 16384 4096 [] a_trailer [] cs d /\ Forall (fun c => blen c <= 16384) cs /\ length cs = 1%nat /\
  frame_encode 16384 (table_of 4096 []) (FHeaders (mkHeaders 3 None a_trailer parts_default 5)) = Ok (t2, b) /\ blen b < 16777216.
Proof.
  assert (FO : Forall field_octets a_trailer) by (apply Forall_cons; [split; apply bytes_okb_ok; reflexivity|apply Forall_nil]).
  destruct (C107_tables 4096) as [_ T0]. destruct (pieces_run 16384 4096 a_trailer FO [] [] T0) as (cs & d & E & P & _). exists cs, d. eexists. eexists.
  vm_compute in E. injection E as D1 _ C1. subst cs d.
  split; [|split; [|split; [|split; [|split; [|split; [|split; [exact P|split; [|split; [reflexivity|split; [vm_compute; reflexivity|vm_compute; reflexivity]]]]]]]]]].
  - apply rh_plain; [discriminate|]. apply rp_plain. discriminate.
  - apply (b_cons _ _ _ _ _ [0; 1; 97; 1; 98] _ [] [] [] _); [|constructor].
    apply (f_lit_new _ _ _ 4096 _ 0 (str "a") [1; 97] (str "b") [1; 98]); [auto|apply utf8_valid_iff; reflexivity|..];
      [apply (str_raw [1] (str "a"))|apply (str_raw [1] (str "b"))]; first [apply (int_short 7 0 1); reflexivity|cbn; lia|apply bytes_okb_ok; reflexivity].
  - unfold rfc_header_list. repeat match goal with |- _ /\ _ => split end; try reflexivity; try apply Forall_nil; try apply NoDup_nil.
    apply Forall_cons; [|apply Forall_nil]. cbn [fst]. change (str "a") with [97]. lowers.
  - exists true, true, false, false. reflexivity.
  - unfold plain_list. repeat match goal with |- _ /\ _ => split end; try (intros v K; discriminate K). cbn. repeat split. apply Forall_nil.
  - apply Forall_cons; [|apply Forall_nil]. split; [cbn [fst]; change (str "a") with [97]; apply Forall_cons; [lia|apply Forall_nil]|]. split; [apply bytes_okb_ok; reflexivity|]. split; vm_compute; reflexivity.
  - apply Forall_cons; [vm_compute; discriminate|apply Forall_nil].
Qed.
