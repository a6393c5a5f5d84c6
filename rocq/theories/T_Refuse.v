(** C102: every octet string is a frame, or refused with an error that names its first defect, or one of the two
    kinds of input on which the frame reader panics or does not return. *)
From Coq Require Import Ascii String NArith ZArith Lia Bool List.
From Verif Require Import Base P_Base M_Header M_Url M_Http1 S_Http1 P_Msg M_Hpack S_Hpack S_HpackApi P_HpackSync S_HpackAll M_Frame M_H2 S_Frame S_H2Api S_Build S_FrameAll P_FrameAll S_Refuse P_Refuse.
Import ListNotations.
Local Open Scope N_scope.

Theorem C102_exact : forall t L l t' e, decoder_reach t -> bytes_ok l ->
  (recv t L l = (t', Err e) <-> refused L t l e t').
Proof. intros t L l t' e R B. apply recv_err_iff; [apply reach_inv, R|exact B]. Qed.
Print Assumptions C102_exact.
Theorem C102_panics : forall t L l, decoder_reach t -> bytes_ok l -> (snd (recv t L l) = Panic <-> crashes l).
Proof. intros t L l R B. apply recv_panic_iff; [apply reach_inv, R|exact B]. Qed.
Print Assumptions C102_panics.
Theorem C102_hangs : forall t L l, decoder_reach t -> bytes_ok l -> (snd (recv t L l) = Diverge <-> hangs t l).
Proof. intros t L l R B. apply recv_diverge_iff; [apply reach_inv, R|exact B]. Qed.
Print Assumptions C102_hangs.

(** So the four specifications cover every input, and no two of them the same. *)
Theorem C102_complete : forall t L l, decoder_reach t -> bytes_ok l ->
  let accepted := exists a rest f t', l = a ++ rest /\ one_frame L t a f t' in
  let rejected := exists e t', refused L t l e t' in
  (accepted /\ ~ rejected /\ ~ crashes l /\ ~ hangs t l) \/
  (~ accepted /\ rejected /\ ~ crashes l /\ ~ hangs t l) \/
  (~ accepted /\ ~ rejected /\ crashes l /\ ~ hangs t l) \/
  (~ accepted /\ ~ rejected /\ ~ crashes l /\ hangs t l).
Proof.
  intros t L l R B accepted rejected.
  assert (A : accepted <-> exists x, snd (recv t L l) = Ok x).
  { split.
    - intros (a & rest & f & t' & E & O). exists (f, rest). rewrite (proj2 (recv_iff t L l t' f rest (reach_inv _ R) B)); [reflexivity|eauto].
    - intros ([f rest] & E). destruct (recv t L l) as [t' r] eqn:Q. cbn [snd] in E. subst r. apply recv_iff in Q as (a & -> & O); [|apply reach_inv, R|exact B].
      exists a, rest, f, t'. auto. }
  assert (J : rejected <-> exists e, snd (recv t L l) = Err e).
  { split.
    - intros (e & t' & H). exists e. rewrite (proj2 (C102_exact t L l t' e R B) H). reflexivity.
    - intros (e & E). destruct (recv t L l) as [t' r] eqn:Q. cbn [snd] in E. subst r. exists e, t'. apply C102_exact; assumption. }
  rewrite A, J, <- (C102_panics t L l R B), <- (C102_hangs t L l R B).
  destruct (snd (recv t L l)) as [x|e| |].
  - left. split; [eauto|]. split; [intros (e & H); discriminate H|]. split; discriminate.
  - right. left. split; [intros (x & H); discriminate H|]. split; [eauto|]. split; discriminate.
  - right. right. left. split; [intros (x & H); discriminate H|]. split; [intros (e & H); discriminate H|]. split; [reflexivity|discriminate].
  - right. right. right. split; [intros (x & H); discriminate H|]. split; [intros (e & H); discriminate H|]. split; [discriminate|reflexivity].
Qed.
Print Assumptions C102_complete.

(** An input is refused for one reason only. *)
Theorem C102_one_error : forall t L l e1 e2 t1 t2, decoder_reach t -> bytes_ok l ->
  refused L t l e1 t1 -> refused L t l e2 t2 -> e1 = e2 /\ t1 = t2.
Proof.
  intros t L l e1 e2 t1 t2 R B H K. apply (C102_exact t L l t1 e1 R B) in H. apply (C102_exact t L l t2 e2 R B) in K. rewrite H in K. injection K as -> ->. auto.
Qed.
Print Assumptions C102_one_error.

(** Short is the answer exactly when the input ends before the frame does, as far as its header can be read; *)
Theorem C102_short : forall t L l, decoder_reach t -> bytes_ok l ->
  (snd (recv t L l) = Err (EHttp2 Short) <->
   blen l < 9 \/ exists n ty fl id p, l = header_octets n ty fl id ++ p /\ n < 16777216 /\ ty < 256 /\ id < 4294967296 /\ defined_flags fl /\ blen p < n).
Proof.
  intros t L l R B. split.
  - intros H. destruct (recv t L l) as [t' r] eqn:Q. cbn [snd] in H. subst r. apply C102_exact in Q; [|assumption..]. exact (short_inv _ _ _ _ Q).
  - intros [S|(n & ty & fl & id & p & -> & Hn & Ht & Hi & D & S)].
    + rewrite (proj2 (C102_exact t L l t _ R B) (rf_header L t l S)). reflexivity.
    + rewrite (proj2 (C102_exact t L _ t _ R B) (rf_payload L t n ty fl id p Hn Ht Hi D S)). reflexivity.
Qed.
Print Assumptions C102_short.
(** any other error stays whatever follows. *)
Theorem C102_final : forall t L l t' e more, decoder_reach t -> bytes_ok l -> bytes_ok more ->
  recv t L l = (t', Err e) -> e <> EHttp2 Short -> recv t L (l ++ more) = (t', Err e).
Proof.
  intros t L l t' e more R B Bm H N. apply C102_exact in H; [|assumption..]. apply C102_exact; [exact R|apply bytes_app_ok; assumption|].
  exact (refused_more L t l e t' more H N).
Qed.
Print Assumptions C102_final.
(** The decoder's table changes only if a header block is read in part or its list is refused; in all other cases of an
    error it is as before. *)
Theorem C102_table : forall t L l t' e, decoder_reach t -> bytes_ok l -> recv t L l = (t', Err e) -> t' <> t ->
  exists fl r id p q rest, l = frame_octets 1 fl (r * 2147483648 + id) p ++ rest /\ unpadded fl p q /\
    exists block, (q = block \/ exists d, dep_range d /\ q = dep_octets d ++ block) /\ headers_bad L t block e t'.
Proof. intros t L l t' e R B H N. apply C102_exact in H; [|assumption..]. exact (table_inv _ _ _ _ _ H N). Qed.
Print Assumptions C102_table.

(** One input for every error; the table keeps the field that was read. *)
Definition c102_errors : list (bytes * werr) := [
  ([0; 0; 1], EHttp2 Short);
  ([0; 0; 1; 0; 0; 0; 0; 0; 1], EHttp2 Short);
  ([0; 0; 0; 0; 2; 0; 0; 0; 1], EHttp2 (BadFlag 2));
  (frame_octets 0 8 1 [3; 1], EHttp2 (TooMuchPadding 3));
  (frame_octets 1 4 1 [64; 1; 97; 1; 98; 200], out_of_bounds);
  (frame_octets 1 4 1 [64; 127; 128; 128; 128], EHttp2 (DecoderErr (IntegerDecodingError NotEnoughOctetsI)));
  (frame_octets 1 4 1 [127; 128; 128; 128; 128; 1], EHttp2 (DecoderErr (IntegerDecodingError TooManyOctets)));
  (frame_octets 1 4 1 [64; 3; 97], EHttp2 (DecoderErr (StringDecodingError NotEnoughOctetsS)));
  (frame_octets 1 4 1 [65; 129; 0], EHttp2 (HuffmanErr PaddingTooLarge));
  (frame_octets 1 4 1 [66; 1; 97], EHttp MethodErr);
  (frame_octets 1 4 1 [72; 1; 97], EHttp InvalidStatusCode);
  (frame_octets 1 4 1 ([70; 65] ++ repeat 97 65), EUrl UrlInvalid);
  (frame_octets 1 4 1 [130; 130; 130; 130; 130], out_of_bounds);
  (frame_octets 1 36 1 [0; 0; 0; 0], EHttp2 InvalidPayloadLength);
  (frame_octets 2 0 3 [0; 0; 0; 3; 0], EHttp2 InvalidDependencyId);
  (frame_octets 3 0 3 [0; 0; 0], EHttp2 InvalidPayloadLength);
  (frame_octets 4 0 3 [], EHttp2 InvalidStreamId);
  (frame_octets 4 1 0 [0], EHttp2 InvalidPayloadLength);
  (frame_octets 4 0 0 [0; 2; 0; 0; 0; 2], EHttp2 InvalidSettingValue);
  (frame_octets 6 0 0 [0], EHttp2 BadFrameSize);
  (frame_octets 7 0 0 [0], EHttp2 BadFrameSize);
  (frame_octets 8 0 0 [0], EHttp2 BadFrameSize);
  (frame_octets 8 0 0 [128; 0; 0; 0], EHttp2 InvalidWindowUpdateValue);
  (frame_octets 9 4 1 [130], EExtension "");
  (frame_octets 77 0 1 [], EExtension "") ].
Example C102_nonvacuous : decoder_reach hi_new /\
  Forall (fun x => bytes_ok (fst x) /\ exists t', recv hi_new 200 (fst x) = (t', Err (snd x)) /\ refused 200 hi_new (fst x) (snd x) t') c102_errors /\
  fst (recv hi_new 200 (frame_octets 1 4 1 [64; 1; 97; 1; 98; 200])) = mkIdx [(str "a", str "b")] 34 4096.
Proof.
  split; [constructor|]. split; [|vm_compute; reflexivity].
  assert (X : Forall (fun x => bytes_ok (fst x) /\ exists t', recv hi_new 200 (fst x) = (t', Err (snd x))) c102_errors).
  { unfold c102_errors. repeat (constructor; [split; [apply bytes_okb_ok; vm_compute; reflexivity|eexists; vm_compute; reflexivity]|]). constructor. }
  eapply Forall_impl; [|exact X]. intros x (B & t' & E). split; [exact B|]. exists t'. split; [exact E|]. apply C102_exact; [constructor|exact B|exact E].
Qed.
(** Octets that crash and octets that hang the reader. *)
Example C102_others : crashes (frame_octets 0 0 0 [1]) /\ hangs hi_new (frame_octets 1 4 1 [130; 32]).
Proof.
  split; [apply (C102_panics hi_new 200)|apply (C102_hangs hi_new 200)]; try constructor; try (apply bytes_okb_ok); vm_compute; reflexivity.
Qed.
