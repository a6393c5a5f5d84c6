(** Lemmas for C105, continued: URL schemes, frame headers and header blocks. *)
From Coq Require Import Ascii String NArith ZArith Lia Bool List ZifyBool ZifyNat ZifyN.
From Verif Require Import Base S_Utf8 P_Base M_Std M_Helper M_Header M_Url M_Http1 S_Http1 S_Http1Api P_Std P_Helper P_Header P_Http1 P_Msg S_Url P_Url P_UrlForm M_Huffman M_Hpack S_Huffman S_Hpack S_HpackApi
  S_HpackAll P_Huffman P_Hpack P_HpackTable P_HpackCodec P_HpackSync P_Lossy P_HpackExact M_Frame M_H2 S_Frame S_H2Api P_Frame S_Refuse P_Refuse M_Cursor S_Cursor P_Cursor.
From Verif Require S_Reject.
From Verif Require Import S_Hpack.
Import ListNotations.
Local Open Scope N_scope.

(** ** The scheme of a URL *)
Lemma scheme_agree l : agree (c_scheme l) (parse_scheme l).
Proof.
  unfold c_scheme, parse_scheme. apply agree_bind; [apply token_by_agree|]. intros t r. destruct (64 <? blen t); [reflexivity|]. destruct (scheme_of_str t) as [s|e| |]; reflexivity.
Qed.
Lemma scheme_set l : bytes_ok l -> (forallb is_scheme_token l = true <-> Forall scheme_char l).
Proof.
  intros B. rewrite forallb_forall, Forall_forall. unfold bytes_ok in B. rewrite Forall_forall in B.
  split; intros H x Hx; apply scheme_token_iff; try (apply B; exact Hx); apply H; exact Hx.
Qed.
Lemma scheme_left_iff l e r : bytes_ok l -> (c_scheme l = (r, Err e) <-> scheme_left l e r).
Proof.
  intros B. unfold c_scheme, c_scheme_token, c_token_by. split.
  - intros H. destruct (scan is_scheme_token l) as [[t x]|] eqn:S.
    + apply scan_some in S as (-> & Ht & b & x' & -> & Hb). apply bytes_ok_app in B as [B1 B2]. apply bytes_ok_cons in B2 as [B2 _]. apply scheme_set in Ht; [|exact B1].
      assert (Nb : ~ scheme_char b) by (intros K; apply scheme_token_spec in K; congruence).
      destruct t as [|c t].
      * cbn [c_bind] in H. injection H as <- <-. apply sl_word, S_Reject.wb_none. exact Nb.
      * cbn [c_bind] in H. destruct (N.ltb_spec 64 (blen (c :: t))) as [L|L].
        -- injection H as <- <-. apply sl_long; assumption.
        -- exfalso. rewrite P_Build2.scheme_named_spec in H by exact L. discriminate.
    + cbn [c_bind] in H. injection H as <- <-. apply sl_word, S_Reject.wb_open. apply scan_none in S. apply scheme_set; assumption.
  - intros H. destruct H as [l e W|t b r Ht L Nb].
    + destruct W as [w W|b r Nb].
      * apply scheme_set in W; [|exact B]. apply scan_none in W. rewrite W. reflexivity.
      * cbn [scan]. destruct (is_scheme_token b) eqn:E; [|reflexivity]. apply scheme_token_iff in E; [contradiction|]. apply bytes_ok_cons in B as [B _]. exact B.
    + apply bytes_ok_app in B as [B1 B2]. apply bytes_ok_cons in B2 as [B2 _]. apply scheme_set in Ht; [|exact B1]. rewrite scan_app.
      * destruct t as [|c t]; [rewrite blen_nil in L; lia|]. cbn [c_bind]. replace (64 <? blen (c :: t)) with true by lia. reflexivity.
      * exact Ht.
      * destruct (is_scheme_token b) eqn:E; [|reflexivity]. apply scheme_token_iff in E; [contradiction|exact B2].
Qed.

(** ** Frame headers *)
Lemma frame_header_agree l : agree (c_frame_header l) (fh_parse l).
Proof.
  unfold c_frame_header, fh_parse. destruct (blen l <? FRAME_HEADER_BYTES); [reflexivity|]. destruct (read_u24 l) as [n l1].
  apply agree_bind. { unfold get. destruct (take_n 1 l1) as [[a r]|]; reflexivity. } intros k l2.
  apply agree_bind. { unfold get. destruct (take_n 1 l2) as [[a r]|]; reflexivity. } intros f l3.
  destruct (flag_new f); [|reflexivity]. destruct (stream_parse l3) as [id l4]. reflexivity.
Qed.
Lemma frame_header_octets n ty f id r : n < 16777216 -> f < 256 ->
  c_frame_header (octets3 n ++ [ty; f] ++ octets4 id ++ r) =
  match flag_new f with
  | None => (octets4 id ++ r, Err (EHttp2 (BadFlag f)))
  | Some fl => let '(i, x) := stream_parse (octets4 id ++ r) in (x, Ok (mkFH n (kind_new ty) fl i))
  end.
Proof.
  intros L F. unfold c_frame_header. rewrite !blen_app. change (blen (octets3 n)) with 3. change (blen [ty; f]) with 2. change (blen (octets4 id)) with 4.
  unfold FRAME_HEADER_BYTES. replace (3 + (2 + (4 + blen r)) <? 9) with false by lia.
  rewrite read_u24_octets by exact L. cbn [app]. change (take_n 1 (ty :: f :: octets4 id ++ r)) with (Some ([ty], f :: octets4 id ++ r)). cbn [c_bind].
  change (take_n 1 (f :: octets4 id ++ r)) with (Some ([f], octets4 id ++ r)). cbn [c_bind].
  change (be_dec [f]) with (0 * 256 + f). change (be_dec [ty]) with (0 * 256 + ty). rewrite !N.mul_0_l, !N.add_0_l. reflexivity.
Qed.
Lemma prefix_left_iff l e r : bytes_ok l -> (c_frame_header l = (r, Err e) <-> prefix_left l e r).
Proof.
  intros B. split.
  - intros H. destruct (N.ltb_spec (blen l) 9) as [A|A].
    + unfold c_frame_header, FRAME_HEADER_BYTES in H. rewrite (proj2 (N.ltb_lt _ _) A) in H. injection H as <- <-. apply pl_short. exact A.
    + destruct (header_split l B A) as (n & ty & f & id & rest & -> & Ln & Lt & Lf & Li). unfold header_octets in *. rewrite <- !app_assoc in *.
      rewrite frame_header_octets in H by assumption. destruct (flag_new f) as [fl|] eqn:F; [destruct (stream_parse _); discriminate|]. injection H as <- <-.
      apply flag_new_none in F; [|exact Lf]. apply pl_flags; assumption.
  - intros H. destruct H as [l A|n ty f id r Ln Lt Lf Li D].
    + unfold c_frame_header, FRAME_HEADER_BYTES. rewrite (proj2 (N.ltb_lt _ _) A). reflexivity.
    + rewrite frame_header_octets by assumption. apply flag_new_none in D; [|exact Lf]. rewrite D. reflexivity.
Qed.

(** ** Header blocks *)
Lemma c_loop_size f t buf : buf <> [] -> representation_of (hd 0 buf) = RSizeUpdate -> c_decode_loop f t buf = (t, buf, [], Diverge).
Proof.
  intros NE R. induction f as [|f IH]; cbn [c_decode_loop]; [reflexivity|].
  destruct buf as [|b buf]; [contradiction|].
  unfold decode_one. rewrite R. change (N.to_nat 0) with 0%nat. cbn [skipn]. rewrite IH. reflexivity.
Qed.
Lemma c_loop_fuel f1 : forall f2 t buf, idx_inv t -> (length buf < f1)%nat -> (length buf < f2)%nat -> c_decode_loop f1 t buf = c_decode_loop f2 t buf.
Proof.
  induction f1 as [|f1 IH]; intros f2 t buf I L1 L2; [lia|]. destruct f2 as [|f2]; [lia|].
  destruct buf as [|b buf]; [reflexivity|].
  assert (NE : b :: buf <> []) by discriminate.
  destruct (representation_of (hd 0 (b :: buf))) eqn:R;
    try (rewrite !c_loop_size by (assumption || discriminate); reflexivity);
    cbn [c_decode_loop];
    (destruct (decode_one_total t (b :: buf) I NE) as [t' f k I' M K1 K2 NR|R'|e He NR]; [|congruence|reflexivity]);
    rewrite (IH f2 t' (skipn (N.to_nat k) (b :: buf)) I'); try reflexivity;
    pose proof (skipn_shorter (b :: buf) k K1 NE); lia.
Qed.
Lemma c_decode_nil t : c_decode t [] = (t, [], [], Ok tt).
Proof. reflexivity. Qed.
Lemma c_decode_field t buf t' f k : idx_inv t -> buf <> [] -> decode_one t buf = Ok (t', Some f, k) ->
  c_decode t buf = let '(t2, r, fs, x) := c_decode t' (skipn (N.to_nat k) buf) in (t2, r, f :: fs, x).
Proof.
  intros I NE E. unfold c_decode at 1. cbn [c_decode_loop].
  pose proof (decode_one_total t buf I NE) as T. rewrite E in T. inversion T as [? ? ? I' M K1 K2 NR| |]; subst.
  rewrite E. destruct buf as [|b buf]; [contradiction|].
  unfold c_decode. pose proof (skipn_shorter (b :: buf) k K1 NE) as SH.
  rewrite (c_loop_fuel _ (S (length (skipn (N.to_nat k) (b :: buf)))) t' _ I'); [reflexivity|lia|lia].
Qed.
Lemma c_decode_err t buf e : buf <> [] -> decode_one t buf = Err e -> c_decode t buf = (t, buf, [], Err e).
Proof. intros NE E. unfold c_decode. cbn [c_decode_loop]. rewrite E. destruct buf; [contradiction|reflexivity]. Qed.
Lemma c_decode_size t buf : buf <> [] -> representation_of (hd 0 buf) = RSizeUpdate -> c_decode t buf = (t, buf, [], Diverge).
Proof. intros NE R. apply c_loop_size; assumption. Qed.

Lemma c_decode_same t l : idx_inv t -> let '(t', r, fs, x) := c_decode t l in decode_headers t l = (t', bind x (fun _ => Ok fs)).
Proof.
  intros I. revert t l I. apply decode_headers_ind.
  - intros t I. reflexivity.
  - intros t buf t' f k I I' M NE K1 K2 E IH. rewrite (c_decode_field _ _ _ _ _ I NE E), (decode_headers_field _ _ _ _ _ I NE E).
    destruct (c_decode t' _) as [[[t2 r] fs] x]. rewrite IH. destruct x; reflexivity.
  - intros t buf I NE R. rewrite c_decode_size, decode_headers_size by assumption. reflexivity.
  - intros t buf e I NE E _. rewrite (c_decode_err _ _ _ NE E), (decode_headers_err _ _ _ NE E). reflexivity.
Qed.
Lemma c_decode_tail t l : idx_inv t -> let '(t', r, fs, x) := c_decode t l in tail_of l r.
Proof.
  intros I. revert t l I. apply decode_headers_ind.
  - intros t I. apply tail_refl.
  - intros t buf t' f k I I' M NE K1 K2 E IH. rewrite (c_decode_field _ _ _ _ _ I NE E).
    destruct (c_decode t' _) as [[[t2 r] fs] x]. destruct IH as [a IH]. exists (firstn (N.to_nat k) buf ++ a). rewrite <- app_assoc, <- IH. symmetry. apply firstn_skipn.
  - intros t buf I NE R. rewrite c_decode_size by assumption. apply tail_refl.
  - intros t buf e I NE E _. rewrite (c_decode_err _ _ _ NE E). apply tail_refl.
Qed.
(** After an error the decoder goes on, when more octets come, as if they had been there from the start. *)
Lemma c_decode_resume t l s : idx_inv t -> forall t' r fs e, c_decode t l = (t', r, fs, Err e) ->
  c_decode t (l ++ s) = let '(t2, r2, fs2, x) := c_decode t' (r ++ s) in (t2, r2, fs ++ fs2, x).
Proof.
  intros I. revert t l I. apply (decode_headers_ind (fun t l => forall t' r fs e, c_decode t l = (t', r, fs, Err e) ->
    c_decode t (l ++ s) = let '(t2, r2, fs2, x) := c_decode t' (r ++ s) in (t2, r2, fs ++ fs2, x))).
  - intros t I t' r fs e H. discriminate.
  - intros t buf t1 f k I I' M NE K1 K2 E IH t' r fs e H. rewrite (c_decode_field _ _ _ _ _ I NE E) in H.
    destruct (c_decode t1 (skipn (N.to_nat k) buf)) as [[[t2 r2] fs2] x]. injection H as -> -> <- ->. specialize (IH _ _ _ _ eq_refl).
    assert (NE' : buf ++ s <> []) by (destruct buf; [contradiction|discriminate]).
    rewrite (c_decode_field _ _ _ _ _ I NE' (decode_one_stable _ _ s _ NE E)).
    replace (skipn (N.to_nat k) (buf ++ s)) with (skipn (N.to_nat k) buf ++ s).
    2: { rewrite skipn_app. replace (N.to_nat k - length buf)%nat with O by (unfold blen in K2; lia). reflexivity. }
    rewrite IH. destruct (c_decode t' (r ++ s)) as [[[t3 r3] fs3] x]. reflexivity.
  - intros t buf I NE R t' r fs e H. rewrite c_decode_size in H by assumption. discriminate.
  - intros t buf e0 I NE E _ t' r fs e H. rewrite (c_decode_err _ _ _ NE E) in H. injection H as <- <- <- <-. destruct (c_decode t (buf ++ s)) as [[[t2 r2] fs2] x]. reflexivity.
Qed.
Lemma field_bad_nonnil dyn l e : field_bad dyn l e -> l <> [].
Proof.
  intros [i rest _ _|p fl l' e' _ H|p fl i l' rest _ H _ _ _|p fl l' e' _ _|p fl i l' f r e' _ H _ _ _|p fl ln n r e' _ _ _]; try discriminate.
  - destruct H; discriminate.
  - destruct (int_repr_head _ _ _ _ H) as (x & h' & -> & _). discriminate.
  - destruct (int_repr_head _ _ _ _ H) as (x & h' & -> & _). discriminate.
Qed.
Lemma c_block_left max dyn a fs dyn' r e : total_size dyn <= max -> bytes_ok r -> block_read max dyn a fs dyn' -> field_bad dyn' r e ->
  c_decode (idx_of max dyn) (a ++ r) = (idx_of max dyn', r, fs, Err e).
Proof.
  intros T B H F. induction H as [dyn|dyn l f d1 ls fs d2 HF HB IH].
  - cbn [app]. apply c_decode_err; [exact (field_bad_nonnil _ _ _ F)|]. apply decode_one_bad; [exact B|exact F].
  - pose proof (field_read_inv _ _ _ _ _ T HF) as T1. specialize (IH T1 F). destruct (field_read_head _ _ _ _ _ HF) as (x & l' & El & _).
    rewrite <- app_assoc. rewrite (c_decode_field (idx_of max dyn) (l ++ ls ++ r) (idx_of max d1) f (blen l)).
    + rewrite skipn_blen, IH. reflexivity.
    + apply idx_of_inv. exact T.
    + rewrite El. discriminate.
    + apply (decode_one_read (idx_of max dyn)); [apply idx_of_inv; exact T|exact HF].
Qed.
Lemma block_left_run t l fs e r t' : idx_inv t -> bytes_ok l -> c_decode t l = (t', r, fs, Err e) ->
  exists dyn', block_left (hi_max t) (hi_table t) l fs e dyn' r /\ t' = mkIdx dyn' (total_size dyn') (hi_max t).
Proof.
  intros I. revert fs e r t'. revert t l I. apply (decode_headers_ind (fun t l => forall fs e r t', bytes_ok l -> c_decode t l = (t', r, fs, Err e) ->
    exists dyn', block_left (hi_max t) (hi_table t) l fs e dyn' r /\ t' = mkIdx dyn' (total_size dyn') (hi_max t))).
  - intros t I fs e r t' _ H. discriminate.
  - intros t buf t1 f k I I' M NE K1 K2 E IH fs e r t' B H. rewrite (c_decode_field _ _ _ _ _ I NE E) in H.
    destruct (c_decode t1 (skipn (N.to_nat k) buf)) as [[[t2 r2] fs2] x]. injection H as -> -> <- ->.
    destruct (decode_one_exact _ _ _ _ _ I B NE E) as (l & rest & d' & -> & HF & -> & Et). rewrite skipn_blen in IH. apply bytes_ok_app in B as [_ B].
    destruct (IH _ _ _ _ B eq_refl) as (dyn' & H & ->). rewrite M in *. rewrite Et in H. cbn [hi_table idx_of] in H. exists dyn'. split; [|reflexivity].
    inversion H as [a r' fs' e' dyn1 HB HFB E1 E2 E3 E4 E5]; subst. rewrite app_assoc. apply bl_intro; [|exact HFB]. apply (br_cons _ _ _ _ d'); assumption.
  - intros t buf I NE R fs e r t' _ H. rewrite c_decode_size in H by assumption. discriminate.
  - intros t buf e0 I NE E _ fs e r t' B H. rewrite (c_decode_err _ _ _ NE E) in H. injection H as <- <- <- <-. exists (hi_table t). split.
    + apply (bl_intro _ _ [] buf); [constructor|]. apply decode_one_err; assumption.
    + apply (inv_idx_of t I).
Qed.
Lemma block_left_iff t l fs e r t' : idx_inv t -> bytes_ok l ->
  (c_decode t l = (t', r, fs, Err e) <->
   exists dyn', block_left (hi_max t) (hi_table t) l fs e dyn' r /\ t' = mkIdx dyn' (total_size dyn') (hi_max t)).
Proof.
  intros I B. split; [apply block_left_run; assumption|]. intros (dyn' & H & ->). destruct (inv_idx_of t I) as [Et Ts].
  destruct H as [a r fs e dyn' HB HF]. rewrite Et at 1. apply c_block_left; try assumption. apply bytes_ok_app in B as [_ B]. exact B.
Qed.
Lemma block_same t l : idx_inv t -> let '(t', r, fs, x) := c_decode t l in decode_headers t l = (t', bind x (fun _ => Ok fs)) /\ tail_of l r.
Proof. intros I. pose proof (c_decode_same t l I) as A. pose proof (c_decode_tail t l I) as B. destruct (c_decode t l) as [[[t' r] fs] x]. split; assumption. Qed.
Lemma block_repeat t l s t' r fs e : idx_inv t -> c_decode t l = (t', r, fs, Err e) ->
  c_decode t (l ++ s) = let '(t2, r2, fs2, x) := c_decode t' (r ++ s) in (t2, r2, fs ++ fs2, x).
Proof. intros I H. exact (c_decode_resume t l s I t' r fs e H). Qed.
