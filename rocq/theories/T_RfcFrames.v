(** C118: what is written as HTTP/2 compared with RFC 9113. *)
From Coq Require Import Ascii String NArith ZArith Lia Bool List ZifyBool ZifyNat ZifyN Permutation.
From Verif Require Import Base P_Base S_Utf8 M_Header M_Url M_Http1 S_Http1 M_Hpack S_Huffman P_Huffman S_Hpack S_HpackApi P_HpackSync S_Near S_Frame M_Frame M_H2 S_FrameAll S_Rfc9113 S_WriteAll P_WriteAll S_RfcFrames P_RfcFrames.
Import ListNotations.
Local Open Scope N_scope.

(** The octets that an encoder with any table writes are what RFC 9113 asks for to send the frame to a receiver with
    the same table, if and only if the frame is one of those named; and then the tables stay the same. *)
Theorem C118_frame : forall room max dyn f t b peer', room < 16777216 -> table_typed max dyn -> frame_typed f ->
  frame_encode room (table_of max dyn) f = Ok (t, b) -> frame_plain f b ->
  (conforms room max (map lower_field dyn) f b peer' <->
   frame_fine room max dyn f /\ t = table_of max (hi_to_vec t) /\ peer' = map lower_field (hi_to_vec t)).
Proof. exact written_conforms. Qed.
Print Assumptions C118_frame.

(** With names of lower case letters, digits and the like the condition on the fields is always met. *)
Theorem C118_headers : forall room max dyn h cs dyn', table_typed max dyn -> frame_typed (FHeaders h) ->
  1 <= hf_id h < 2147483648 -> hf_dep h = None -> parts_fields (hf_parts h) = [] -> (forall f, In f (hf_fields h) -> fst f <> str "accept-") ->
  Forall (fun f => Forall h2_char (fst f)) (dyn ++ hf_fields h) -> pieces room max dyn (hf_fields h) [] cs dyn' ->
  Forall (fun c => blen c <= room) cs -> (flag_on (hf_flags h) 0 -> length cs = 1%nat) -> frame_fine room max dyn (FHeaders h).
Proof. exact headers_tokens. Qed.
Print Assumptions C118_headers.

(** Octets stand for one list of fields at most, so that there is only one such meaning. *)
Theorem C118_block_unique : forall max d l fs d', rfc_block max d l fs d' -> forall gs d'', rfc_block max d l gs d'' -> fs = gs /\ d' = d''.
Proof. exact block_one. Qed.
Print Assumptions C118_block_unique.

(** Refuted: that a PRIORITY frame is one, whatever it says. *)
Theorem C118_priority_refuted : forall room max dyn p t b peer', room < 16777216 -> table_typed max dyn -> frame_typed (FPriority p) ->
  frame_encode room (table_of max dyn) (FPriority p) = Ok (t, b) -> ~ conforms room max (map lower_field dyn) (FPriority p) b peer'.
Proof.
  intros room max dyn p t b peer' R TT T E C. apply (C118_frame room max dyn (FPriority p) t b peer' R TT T E Logic.I) in C.
  destruct C as [C _]. inversion C.
Qed.
Print Assumptions C118_priority_refuted.
(** And that a PUSH_PROMISE frame is. *)
Theorem C118_push_refuted : forall room max dyn p t b peer', room < 16777216 -> table_typed max dyn -> frame_typed (FPushPromise p) ->
  frame_encode room (table_of max dyn) (FPushPromise p) = Ok (t, b) -> blen b < 16777216 -> ~ conforms room max (map lower_field dyn) (FPushPromise p) b peer'.
Proof.
  intros room max dyn p t b peer' R TT T E L C. apply (C118_frame room max dyn (FPushPromise p) t b peer' R TT T E L) in C.
  destruct C as [C _]. inversion C.
Qed.
Print Assumptions C118_push_refuted.
(** That the end of the stream is told on the HEADERS frame: in a block of several frames it is on the last
    CONTINUATION, where END_STREAM is not defined. *)
Theorem C118_end_stream_refuted : forall room max dyn h cs dyn' t b peer', room < 16777216 -> table_typed max dyn -> frame_typed (FHeaders h) ->
  frame_plain (FHeaders h) b -> flag_on (hf_flags h) 0 -> pieces room max dyn (hf_fields h) [] cs dyn' -> (1 < length cs)%nat ->
  frame_encode room (table_of max dyn) (FHeaders h) = Ok (t, b) -> ~ conforms room max (map lower_field dyn) (FHeaders h) b peer'.
Proof.
  intros room max dyn h cs dyn' t b peer' R TT T P F PC L E C. apply (C118_frame room max dyn (FHeaders h) t b peer' R TT T E P) in C.
  destruct C as [C _]. inversion C as [|h0 cs' d' _ _ _ _ PC' _ L'| | | | | |]; subst. destruct (pieces_one _ _ _ _ _ _ _ PC _ _ PC') as [-> _].
  rewrite (L' F) in L. lia.
Qed.
Print Assumptions C118_end_stream_refuted.
(** That the priority and the pseudo header fields set on a HEADERS frame are sent. *)
Theorem C118_parts_refuted : forall room max dyn h t b peer', room < 16777216 -> table_typed max dyn -> frame_typed (FHeaders h) ->
  frame_plain (FHeaders h) b -> hf_dep h <> None \/ parts_fields (hf_parts h) <> [] ->
  frame_encode room (table_of max dyn) (FHeaders h) = Ok (t, b) -> ~ conforms room max (map lower_field dyn) (FHeaders h) b peer'.
Proof.
  intros room max dyn h t b peer' R TT T P D E C. apply (C118_frame room max dyn (FHeaders h) t b peer' R TT T E P) in C.
  destruct C as [C _]. inversion C as [|h0 cs' d' _ D1 D2 _ _ _ _| | | | | |]; subst. destruct D; contradiction.
Qed.
Print Assumptions C118_parts_refuted.
(** That no frame is longer than the receiver allows, also with the limit that every receiver has at first: the
    decision to begin a new frame is made with the length of the text, and its Huffman code can be longer. *)
Theorem C118_size_refuted : blen (fst long_field) + blen (snd long_field) = 5001 /\
  exists c d b, pieces 16384 4096 [] [long_field] [] [c] d /\ 16384 < blen c /\
    frame_encode 16384 (table_of 4096 []) (FHeaders long_headers) = Ok (table_of 4096 d, b) /\ forall peer', ~ conforms 16384 4096 [] (FHeaders long_headers) b peer'.
Proof. split; [vm_compute; reflexivity|exact long_written]. Qed.
Print Assumptions C118_size_refuted.
(** That a frame which RFC 9113 forbids is refused: data, a reset or a header block of the stream 0, an increment of 0,
    pings that are too short, settings out of range. *)
Definition odd_frames : list frame := [
  FData (mkData 0 (str "x") 0); FData (mkData 1 (str "x") 8); FHeaders (mkHeaders 0 None [(str "x", str "y")] parts_default 0); FReset (mkReset 0 8);
  FWindowUpdate (mkWin 1 0); FWindowUpdate (mkWin 1 2147483648); FPing (mkPing false (str "abc")); FGoAway (mkGoAway 2147483648 0 []);
  FSettings (settings_of [(2, 2)]); FSettings (settings_of [(4, 2147483648)]); FSettings (settings_of [(5, 16383)]);
  FSettings (mkSettings 1 (Some 1) None None None None None None)].
Theorem C118_odd_refuted : Forall (fun f => exists t b, frame_encode 16384 (table_of 4096 []) f = Ok (t, b) /\
  forall peer', ~ conforms 16384 4096 [] f b peer') odd_frames.
Proof.
  assert (TT : table_typed 4096 []) by (split; [apply N.le_0_l|constructor]).
  assert (K : forall f t b, frame_typed f -> frame_encode 16384 (table_of 4096 []) f = Ok (t, b) -> frame_plain f b -> ~ frame_fine 16384 4096 [] f ->
    exists t b, frame_encode 16384 (table_of 4096 []) f = Ok (t, b) /\ forall peer', ~ conforms 16384 4096 [] f b peer').
  { intros f t b T E P N. exists t, b. split; [exact E|]. intros peer' C.
    apply (C118_frame 16384 4096 [] f t b peer' eq_refl TT T E P) in C. apply N, C. }
  unfold odd_frames. repeat apply Forall_cons; [..|apply Forall_nil].
  all: eapply K; [|vm_compute; reflexivity| |].
  all: try (intros X; inversion X; subst; cbn in *; lia).
  all: try exact Logic.I.
  all: try (cbn; unfold u32; repeat match goal with |- _ /\ _ => split end; try lia; repeat constructor; lia).
  all: try (cbn; unfold u32; repeat match goal with |- _ /\ _ => split end; try lia; repeat constructor; vm_compute; reflexivity).
  - intros X. inversion X as [d I N| | | | | | |]; subst. apply N. reflexivity.
  - split; [apply sendableb_ok; reflexivity|]. split; [apply flag_zero_off|]. split; [apply flag_zero_off|]. reflexivity.
  - intros X. inversion X as [| | | |p0 A1 A2| | |]; subst. discriminate A1.
  - intros X. inversion X as [| |s0 A1 A2 A3| | | | |]; subst. apply Forall_inv in A2. cbn in A2. lia.
  - intros X. inversion X as [| |s0 A1 A2 A3| | | | |]; subst. apply Forall_inv in A2. cbn in A2. lia.
  - intros X. inversion X as [| |s0 A1 A2 A3| | | | |]; subst. apply Forall_inv in A2. cbn in A2. lia.
Qed.
Print Assumptions C118_odd_refuted.

(** Data in two frames, the last of which ends the stream. *)
Example C118_data_example : forall peer',
  conforms 3 4096 [] (FData (mkData 5 (str "abcd") 1)) [0;0;3; 0; 0; 0;0;0;5; 97;98;99; 0;0;1; 0; 1; 0;0;0;5; 100] peer' <-> peer' = [].
Proof.
  intros peer'. assert (TT : table_typed 4096 []) by (split; [apply N.le_0_l|constructor]).
  pose proof (C118_frame 3 4096 [] (FData (mkData 5 (str "abcd") 1)) (table_of 4096 []) [0;0;3; 0; 0; 0;0;0;5; 97;98;99; 0;0;1; 0; 1; 0;0;0;5; 100] peer' eq_refl TT) as H.
  specialize (H ltac:(cbn; unfold u32; lia) eq_refl Logic.I). rewrite H. clear H. split; [intros (_ & _ & ->); reflexivity|]. intros ->.
  split; [|split; reflexivity]. constructor; [cbn; lia|discriminate].
Qed.
(** A request in a HEADERS frame that ends the stream. *)
Definition sample_headers : headersf := mkHeaders 1 None [(str ":method", str "GET"); (str "cookie", str "a"); (str "x-y", str "b")] parts_default 1.
Definition sample_octets : bytes := [0; 0; 11; 1; 5; 0; 0; 0; 1; 130; 96; 129; 31; 64; 131; 242; 183; 175; 129; 143].
Example C118_headers_example : forall peer', conforms 16384 4096 [] (FHeaders sample_headers) sample_octets peer' <->
  peer' = [(str "x-y", str "b"); (str "cookie", str "a")].
Proof.
  assert (TT : table_typed 4096 []) by (split; [apply N.le_0_l|constructor]).
  assert (T : frame_typed (FHeaders sample_headers)).
  { split; [reflexivity|]. repeat constructor; cbn; unfold byte_ok; lia. }
  set (d := [(str "x-y", str "b"); (str "cookie", str "a")]).
  assert (E : frame_encode 16384 (table_of 4096 []) (FHeaders sample_headers) = Ok (table_of 4096 d, sample_octets)) by (vm_compute; reflexivity).
  intros peer'. rewrite (C118_frame 16384 4096 [] _ _ _ peer' eq_refl TT T E).
  2:{ split; [apply sendableb_ok; reflexivity|]. split; [discriminate|]. split; [discriminate|]. reflexivity. }
  apply (frame_all 16384 4096 [] _ _ _ TT T) in E. destruct E as (d' & _ & W). inversion W as [|h cs d0 PC Q Eb| | | | | | |]; subst.
  assert (L : exists c, cs = [c] /\ blen c = 11).
  { destruct cs as [|c [|y t]]; [discriminate Eb| |].
    - exists c. split; [reflexivity|]. apply (f_equal blen) in Eb. unfold block_framed, framed in Eb. rewrite blen_app in Eb.
      assert (H9 : blen (header_octets (blen c mod 16777216) 1 (end_headers (hf_flags sample_headers)) (hf_id sample_headers)) = 9) by reflexivity.
      assert (Eb' : 9 + blen c = blen sample_octets) by (rewrite <- Eb, <- H9; reflexivity). assert (H20 : blen sample_octets = 20) by reflexivity. lia.
    - exfalso. apply (f_equal (fun l => nth 4 l 0)) in Eb. discriminate Eb. }
  destruct L as (c & -> & L). split; [intros (_ & _ & ->); reflexivity|]. intros ->. split; [|split; reflexivity].
  eapply C118_headers; try reflexivity; [exact TT|exact T|cbn; lia| | |exact PC| |].
  - intros f Hf. cbn in Hf. destruct Hf as [<-|[<-|[<-|[]]]]; discriminate.
  - apply h2_charb_ok. reflexivity.
  - constructor; [lia|constructor].
  - intros _. reflexivity.
Qed.
