(** Lemmas for C106: sizes of what the readers make. *)
From Coq Require Import Ascii String NArith ZArith Lia Bool List ZifyBool ZifyNat ZifyN.
From Verif Require Import Base S_Utf8 P_Base M_Std M_Helper M_Header M_Url M_Http1 S_Http1Api P_Std S_Hex P_Chunk P_Msg S_Url S_UrlAll P_UrlAll
  M_Huffman M_Hpack S_Huffman S_Hpack S_HpackAll S_HpackApi P_Huffman P_HpackTable P_HpackCodec P_HpackSync P_Lossy P_HpackExact
  M_Ws S_Ws S_WsApi P_Ws S_WsAll P_WsAll M_Frame S_Frame M_H2 P_H2 S_H2Api S_FrameAll P_FrameAll P_More P_Build2 P_Frame S_Http1 S_Bound.
Import ListNotations.
Local Open Scope N_scope.

(** ** Huffman codes and texts *)
Lemma words_min syms : Forall (fun x => x <= 256) syms -> (5 * length syms <= length (flat_map huff_word syms))%nat.
Proof.
  induction 1 as [|x l Hx _ IH]; [cbn; lia|]. cbn [flat_map length]. rewrite app_length. pose proof (huff_word_length x Hx). lia.
Qed.
Lemma coded_min c syms : Forall (fun x => x <= 256) syms -> huff_coded c syms -> 5 * N.of_nat (length syms) <= 8 * blen c.
Proof.
  intros H (p & Hp & E). apply (f_equal (@length bool)) in E. rewrite text_bits_length, app_length, repeat_length in E.
  pose proof (words_min syms H). unfold blen. lia.
Qed.
Lemma huff_bound c s : huff_decode c = Ok s -> 5 * blen s <= 8 * blen c.
Proof.
  intros H. apply huff_decode_exact in H as (syms & Hs & Hc & ->). unfold blen at 1. rewrite map_length. apply coded_min; assumption.
Qed.
Lemma zeros_bits k : text_bits (repeat 0 (5 * k)) = flat_map huff_word (repeat 48 (8 * k)).
Proof.
  induction k as [|k IH]; [reflexivity|].
  replace (5 * S k)%nat with (5 + 5 * k)%nat by lia. replace (8 * S k)%nat with (8 + 8 * k)%nat by lia.
  rewrite !repeat_app, flat_map_app, <- IH. reflexivity.
Qed.
Lemma huff_zeros k : huff_decode (repeat 0 (5 * k)) = Ok (repeat 48 (8 * k)).
Proof.
  apply huff_decode_bytes; [apply Forall_forall; intros x Hx; apply repeat_spec in Hx; subst x; unfold byte_ok; lia|].
  exists 0%nat. split; [lia|]. rewrite zeros_bits. cbn [repeat]. rewrite app_nil_r. reflexivity.
Qed.
Lemma lossy_bound l s : lossy l s -> blen s <= 3 * blen l.
Proof.
  induction 1 as [|c l s _ _ IH|a l s B _ IH]; [lia|rewrite !blen_app; lia|]. rewrite !blen_app.
  change (blen (utf8_enc 65533)) with 3. assert (1 <= blen a).
  { destruct B as (_ & [E|[E _]] & _); [unfold blen; lia|]. destruct a; [contradiction E; reflexivity|rewrite blen_cons; lia]. }
  lia.
Qed.
Lemma utf8_bound l : blen (utf8_lossy l) <= 3 * blen l.
Proof. apply lossy_bound, lossy_spec. Qed.
Lemma utf8_lossy_ff n : utf8_lossy (repeat 255 n) = concat (repeat [239; 191; 189] n).
Proof.
  symmetry. apply lossy_iff. induction n as [|n IH]; [constructor|].
  cbn [repeat concat]. apply (lo_broken [255]); [|exact IH]. split; [|split; [left; reflexivity|]].
  - intros c r Sc E. unfold scalar in Sc. cbn [app] in E. pose proof (utf8_enc_length c) as L.
    destruct (utf8_enc c) as [|b y] eqn:Ec; [cbn in L; lia|]. cbn [app] in E. injection E as <- _.
    unfold utf8_enc in Ec. repeat match type of Ec with context [if ?b then _ else _] => destruct b eqn:? end; injection Ec as Ec _; lia.
  - intros b l' _ (c & y & Sc & Ec). cbn [app] in Ec. unfold scalar in Sc.
    unfold utf8_enc in Ec. repeat match type of Ec with context [if ?b then _ else _] => destruct b eqn:? end; injection Ec as Ec _; lia.
Qed.

(** ** HPACK *)
Lemma static_max : Forall (fun f => field_octets f <= 28) (map rfc_entry rfc_static).
Proof. apply Forall_forall. intros f Hf. assert (H : forallb (fun f => field_octets f <=? 28) (map rfc_entry rfc_static) = true) by (vm_compute; reflexivity). rewrite forallb_forall in H. specialize (H f Hf). lia. Qed.
Lemma in_total f dyn : In f dyn -> size_of f <= total_size dyn.
Proof.
  induction dyn as [|g dyn IH]; [intros []|]. cbn [total_size fold_right]. fold (total_size dyn). intros [-> |H]; [lia|]. specialize (IH H). lia.
Qed.
Lemma lookup_max max dyn i f : total_size dyn <= max -> read_lookup dyn i = Some f -> field_octets f <= field_max max.
Proof.
  intros T H. unfold read_lookup, rfc_lookup in H. destruct (i =? 15); [injection H as <-; unfold field_max; change (field_octets (str "accept-", [])) with 7; lia|].
  destruct (i =? 0); [discriminate|]. apply nth_error_In, in_app_or in H as [H|H].
  - pose proof static_max as M. rewrite Forall_forall in M. specialize (M f H). unfold field_max. lia.
  - apply in_total in H. unfold size_of in H. unfold field_max, field_octets. lia.
Qed.
Lemma str_bound l s : str_read l s -> 5 * blen s <= 8 * blen l /\ 1 <= blen l.
Proof.
  assert (K : forall fl h n x, int_repr 7 fl h n -> 1 <= blen (h ++ x)).
  { intros fl h n x R. destruct (int_repr_head _ _ _ _ R) as (a & h' & -> & _). rewrite blen_app, blen_cons. lia. }
  intros H. destruct H as [h s R L B|h c syms R L B Hs Hc].
  - split; [rewrite blen_app; lia|exact (K _ _ _ _ R)].
  - split; [|exact (K _ _ _ _ R)]. pose proof (coded_min c syms Hs Hc). rewrite blen_app. unfold blen at 1. rewrite map_length. lia.
Qed.
Lemma field_bound max dyn l f d : total_size dyn <= max -> field_read max dyn l f d -> 1 <= blen l /\ field_octets f <= blen l * field_max max.
Proof.
  intros T H. assert (D : 28 <= field_max max) by (unfold field_max; lia).
  assert (K : forall p fl h n, int_repr p fl h n -> 1 <= blen h).
  { intros p fl h n R. destruct (int_repr_head _ _ _ _ R) as (a & h' & -> & _). rewrite blen_cons. lia. }
  destruct H as [i f Hi Hl|i l e v lv R L Hl Hv|n ln m v lv Hn Hm Hv|fl i l e v lv Hf R L Hl Hv|fl n ln m v lv Hf Hn Hm Hv].
  - apply lookup_max with (max := max) in Hl; [|exact T]. change (blen [128 + i]) with 1. lia.
  - apply lookup_max with (max := max) in Hl; [|exact T]. pose proof (K _ _ _ _ R). apply str_bound in Hv as [Hv _].
    unfold field_octets in *. cbn [fst snd]. rewrite blen_app. nia.
  - apply str_bound in Hn as [Hn Ln]. apply lossy_bound in Hm. apply str_bound in Hv as [Hv Lv]. unfold field_octets. cbn [fst snd]. rewrite blen_cons, blen_app. nia.
  - apply lookup_max with (max := max) in Hl; [|exact T]. pose proof (K _ _ _ _ R). apply str_bound in Hv as [Hv _].
    unfold field_octets in *. cbn [fst snd]. rewrite blen_app. nia.
  - apply str_bound in Hn as [Hn Ln]. apply lossy_bound in Hm. apply str_bound in Hv as [Hv Lv]. unfold field_octets. cbn [fst snd]. rewrite blen_cons, blen_app. nia.
Qed.
Lemma block_bound max dyn l fs d : total_size dyn <= max -> block_read max dyn l fs d ->
  N.of_nat (length fs) <= blen l /\ list_octets fs <= blen l * field_max max.
Proof.
  intros T H. induction H as [dyn|dyn l f d1 ls fs d2 HF HB IH]; [cbn; lia|].
  destruct (IH (field_read_inv _ _ _ _ _ T HF)) as [IH1 IH2]. destruct (field_bound _ _ _ _ _ T HF) as [F1 F2].
  cbn [length list_octets fold_right]. fold (list_octets fs). rewrite blen_app. split; lia.
Qed.
Lemma decode_bound t buf t' fs : decoder_reach t -> bytes_ok buf -> decode_headers t buf = (t', Ok fs) ->
  N.of_nat (length fs) <= blen buf /\ list_octets fs <= blen buf * field_max (hi_max t).
Proof.
  intros R B H. apply reach_inv in R. destruct (inv_idx_of t R) as [_ T]. apply decode_iff in H as (dyn & H & _); [|exact R|exact B].
  exact (block_bound _ _ _ _ _ T H).
Qed.
(** Every octet 0xBE is the newest entry of the table. *)
Lemma repeat_index max f dyn n : block_read max (f :: dyn) (repeat 190 n) (repeat f n) (f :: dyn).
Proof.
  induction n as [|n IH]; [constructor|]. change (repeat 190 (S n)) with ([128 + 62] ++ repeat 190 n). cbn [repeat].
  refine (br_cons _ _ _ _ _ _ _ _ _ IH). apply fr_indexed; [lia|]. reflexivity.
Qed.
Lemma list_octets_repeat f n : list_octets (repeat f n) = N.of_nat n * field_octets f.
Proof. induction n as [|n IH]; [reflexivity|]. cbn [repeat list_octets fold_right]. fold (list_octets (repeat f n)). rewrite IH. lia. Qed.

(** ** URLs *)
Lemma pct_bound raw s : pct_form raw s -> blen s <= blen raw.
Proof. induction 1 as [|b l s _ _ IH|h x k y l s _ _ _ IH]; rewrite ?blen_cons; [lia|lia|lia]. Qed.
Lemma text_bound raw s : text_of raw s -> blen s <= blen raw.
Proof. intros [H _]. exact (pct_bound _ _ H). Qed.
Lemma filter_bound (p : N -> bool) l : blen (filter p l) <= blen l.
Proof. induction l as [|x l IH]; [cbn; lia|]. cbn [filter]. destruct (p x); rewrite ?blen_cons; lia. Qed.
Lemma path_bound pa p : path_part pa p -> blen p <= blen pa + 1 /\ (pa <> [] -> blen p <= blen pa).
Proof. intros [|t q _ H]; [change (blen (str "/")) with 1; rewrite blen_nil; split; [lia|intros C; contradiction C; reflexivity]|]. apply text_bound in H. split; [lia|intros _; exact H]. Qed.
Lemma query_bound qq q : query_part qq q -> opt_octets q <= blen qq.
Proof. intros [|t s _ H]; cbn [opt_octets]; [lia|]. apply text_bound in H. rewrite blen_cons. lia. Qed.
Lemma user_bound k us pw : user_part k us pw -> opt_octets us + opt_octets pw <= blen k.
Proof.
  intros [|k' a c t s p _ _ _ _ H1 H2]; cbn [opt_octets]; [lia|]. apply text_bound in H1, H2.
  pose proof (filter_bound (fun b => negb (b =? 63)) t). rewrite !blen_app, blen_cons, blen_app. lia.
Qed.
Lemma url_bound l u : url_means l u -> url_octets u <= blen l.
Proof.
  intros H. destruct H; unfold url_octets; cbn [u_scheme u_path u_user u_pass u_domain u_query opt_octets];
    repeat match goal with
    | X : text_of _ _ |- _ => apply text_bound in X
    | X : path_part _ _ |- _ => apply path_bound in X
    | X : query_part _ _ |- _ => apply query_bound in X
    | X : user_part _ _ _ |- _ => apply user_bound in X
    end; rewrite ?blen_app, ?blen_cons, ?blen_app, ?blen_cons, ?blen_app in *; change (blen (str "://")) with 3; change (blen (str "/")) with 1 in *.
  - destruct H as [_ H]. specialize (H H0). change (blen (scheme_str ScNone)) with 0. lia.
  - lia.
  - rewrite ?blen_cons in *. lia.
  - rewrite ?blen_cons in *. lia.
  - rewrite ?blen_cons in *. lia.
Qed.
Lemma url_parse_bound l u : bytes_ok l -> url_parse l = Ok u -> url_octets u <= blen l.
Proof. intros B H. apply url_bound, url_means_iff; assumption. Qed.

(** ** Messages of HTTP/1 *)
Lemma list_octets_cons n v h : list_octets ((n, v) :: h) = blen n + blen v + list_octets h.
Proof. reflexivity. Qed.
Lemma insert_bound h n v : list_octets (hm_insert h n v) <= list_octets h + blen n + blen v /\ (length (hm_insert h n v) <= S (length h))%nat.
Proof.
  induction h as [|[n' v'] h [IH1 IH2]]; cbn [hm_insert length]; [rewrite list_octets_cons; split; lia|].
  destruct (name_eq n' n); cbn [length]; rewrite !list_octets_cons; lia.
Qed.
Lemma add_bound hs : forall h, list_octets (add_fields h hs) <= list_octets h + list_octets hs /\ (length (add_fields h hs) <= length h + length hs)%nat.
Proof.
  unfold add_fields. induction hs as [|[n v] hs IH]; intros h; cbn [fold_left length]; [change (list_octets []) with 0; split; lia|]. rewrite list_octets_cons.
  cbn [fst snd]. specialize (IH (hm_insert h n v)). pose proof (insert_bound h n v). lia.
Qed.
Lemma field_line_bound w n v : field w n v -> blen n + blen v + 3 <= blen w.
Proof.
  intros [m i j x _ _ _|m i j e _ He]; rewrite !blen_app, !blen_cons, !blen_app; [change (blen CRLF) with 2; lia|]. rewrite ?blen_nil, blen_cons. destruct He; rewrite ?blen_cons; lia.
Qed.
Lemma fields_bound ws hs : fields ws hs -> list_octets hs + 3 * N.of_nat (length hs) + 1 <= blen ws.
Proof.
  induction 1 as [| |w n v ws hs H _ IH]; [cbv; discriminate|cbv; discriminate|]. apply field_line_bound in H. cbn [length]. rewrite list_octets_cons, blen_app. lia.
Qed.
Lemma get_bound h n v : hm_get h n = Some v -> blen v <= list_octets h.
Proof.
  induction h as [|[n' v'] h IH]; cbn [hm_get]; [discriminate|]. rewrite list_octets_cons.
  destruct (name_eq n' n); [intros H; injection H as <-; lia|]. intros H. specialize (IH H). lia.
Qed.
Lemma host_bound h s : hm_get_host h = Some s -> blen s <= 3 * list_octets h.
Proof.
  unfold hm_get_host. intros H. destruct (hm_get h (str "host")) as [v|] eqn:E.
  - injection H as <-. apply get_bound in E. pose proof (utf8_bound v). lia.
  - destruct (hm_get h (str ":authority")) as [v|] eqn:E2; [|discriminate]. injection H as <-. apply get_bound in E2. pose proof (utf8_bound v). lia.
Qed.
Lemma host_parts_bound s d n : host_parts s d n -> blen d <= blen s.
Proof. intros [x _|x p m _ _ _]; [lia|]. rewrite blen_app. lia. Qed.
Lemma scheme_named_bound t s : scheme_of_str t = Ok s -> blen (scheme_str s) <= 64 /\ blen (scheme_str s) = blen t.
Proof.
  unfold scheme_of_str. destruct (N.ltb_spec 64 (blen t)) as [K|K]; [discriminate|]. intros H.
  repeat match type of H with (if ?b then _ else _) = _ => let E := fresh "E" in destruct b eqn:E; [injection H as <-; apply beq_eq in E; subst t; cbv; split; [discriminate|reflexivity]|] end.
  injection H as <-. cbn [scheme_str]. lia.
Qed.
Lemma hint_bound h s : scheme_hint h s -> blen (scheme_str s) <= 64.
Proof. intros [_|v x _ H|v _ _]; [cbv; discriminate|apply scheme_named_bound in H; lia|cbv; discriminate]. Qed.
Lemma wire_url_bound m t h u : bytes_ok t -> wire_url m t h u -> url_octets u <= blen t + 3 * list_octets h + 64.
Proof.
  intros B H. destruct H as [d n _ H|u u1 u2 _ H HF HS].
  - apply host_parts_bound in H. unfold url_octets, with_host. cbn [u_scheme u_path u_user u_pass u_domain u_query opt_octets].
    change (blen (scheme_str (u_scheme url_new))) with 0. change (blen (u_path url_new)) with 1.
    change (opt_octets (u_user url_new)) with 0. change (opt_octets (u_pass url_new)) with 0. change (opt_octets (u_query url_new)) with 0. lia.
  - apply url_parse_bound in H; [|exact B].
    assert (A : url_octets u1 <= blen t + 3 * list_octets h /\ (u_scheme u1 = u_scheme u)).
    { destruct HF as [_|_ _|s d n E Hh Hp]; [split; [lia|reflexivity]|split; [lia|reflexivity]|]. apply host_bound in Hh. apply host_parts_bound in Hp.
      unfold url_octets, with_host in *. cbn [u_scheme u_path u_user u_pass u_domain u_query opt_octets] in *. rewrite E in H. cbn [opt_octets] in H. split; [lia|reflexivity]. }
    destruct A as [A _]. destruct HS as [_|s E Hs]; [lia|]. apply hint_bound in Hs.
    unfold url_octets, with_scheme in *. cbn [u_scheme u_path u_user u_pass u_domain u_query] in *. lia.
Qed.
Lemma request_bound q l q' n : bytes_ok l -> req_parse q l = (q', Ok n) ->
  list_octets (q_header q') + 3 * N.of_nat (length (q_header q')) + 14 <= n /\ url_octets (q_url q') <= 3 * n + 64 /\ n <= blen l.
Proof.
  intros B H. apply request_exact in H as (wire & rest & m & t & v & hs & u & -> & -> & Km & Kv & Hh & Hu & ->); [|exact B].
  cbn [q_header q_url]. inversion Hh as [bl m' i t' j v' e fs hs' Hbl Hm Ht Hv He Hf E1 E2 E3 E4 E5]. subst m' t' v' hs'.
  apply fields_bound in Hf. pose proof (add_bound hs []) as A. change (list_octets []) with 0 in A. cbn [length] in A.
  assert (Bt : bytes_ok t). { destruct Ht as [_ Ht]. apply Forall_forall. intros x Hx. rewrite Forall_forall in Ht. specialize (Ht x Hx). unfold vchar in Ht. unfold byte_ok. lia. }
  apply wire_url_bound in Hu; [|exact Bt].
  assert (NE : forall w, word w -> 1 <= blen w). { intros [|a w] [C _]; [contradiction C; reflexivity|rewrite blen_cons; lia]. }
  assert (Lm : 3 <= blen (method_str m)) by (destruct Km as [<-|[<-|[<-|[<-|[<-|[<-|[<-|[<-|[<-|[]]]]]]]]]]; cbv; discriminate).
  assert (Lv : 6 <= blen (version_str v)) by (destruct Kv as [<-|[<-|[<-|[<-|[]]]]]; cbv; discriminate).
  pose proof (NE t Ht) as Lt. rewrite !blen_app. assert (Le : 1 <= blen e) by (destruct He; cbv; discriminate).
  assert (S1 : forall k, blen (spaces (S k)) = 1 + N.of_nat k) by (intros k; unfold blen, spaces; rewrite repeat_length; lia). rewrite !S1.
  repeat split; lia.
Qed.

Lemma response_bound p l p' n : bytes_ok l -> resp_parse p l = (p', Ok n) ->
  list_octets (p_header p') + 3 * N.of_nat (length (p_header p')) + 14 <= n /\ n <= blen l.
Proof.
  intros B H. apply response_exact in H as (wire & rest & v & c & hs & -> & -> & Kv & Kc & Hh & ->); [|exact B].
  cbn [p_header]. inversion Hh as [bl v' i c' j r e fs hs' Hbl Hv Hc Hr He Hf E1 E2 E3 E4]. subst v' c' hs'.
  apply fields_bound in Hf. pose proof (add_bound hs []) as A. change (list_octets []) with 0 in A. cbn [length] in A.
  assert (Lv : 6 <= blen (version_str v)) by (destruct Kv as [<-|[<-|[<-|[<-|[]]]]]; cbv; discriminate).
  assert (Lc : 3 <= blen (status_str c)) by (rewrite status_str_three by exact Kc; cbv; discriminate).
  assert (Lr : 1 <= blen r). { destruct r as [|a r]; [destruct Hr as [C _]; contradiction C; reflexivity|rewrite blen_cons; lia]. }
  rewrite !blen_app. assert (Le : 1 <= blen e) by (destruct He as [-> | ->]; cbv; discriminate).
  assert (S1 : forall k, blen (spaces (S k)) = 1 + N.of_nat k) by (intros k; unfold blen, spaces; rewrite repeat_length; lia). rewrite !S1.
  split; lia.
Qed.

(** ** Chunks and WebSocket frames *)
Lemma chunk_bound l off n : parse_chunk_data l = Ok (off, n) -> off + n + 2 <= blen l.
Proof. intros H. apply chunk_exact in H as (line & rest & -> & _ & -> & _ & H). rewrite blen_app. lia. Qed.
Lemma ws_bound l d r : bytes_ok l -> read_dataframe l = Ok (d, r) -> blen (d_data d) + 2 + blen r <= blen l.
Proof.
  intros B H. destruct (read_dataframe_inv l d r B H) as (key & E & _). rewrite E, blen_app. unfold spec_frame.
  destruct key as [[[[a b] c] e]|]; rewrite blen_app, ?spec_mask_length; unfold spec_header; cbn [app]; rewrite !blen_cons; lia.
Qed.
Lemma message_bound frames m : msg_from_dataframes frames = Ok m -> blen (m_payload m) <= fold_right (fun d n => blen (df_take d) + n) 0 frames.
Proof.
  intros H. apply message_good_iff in H. destruct H as [d a m _ H].
  assert (E : forall fs, blen (payload fs) = fold_right (fun d n => blen (df_take d) + n) 0 fs).
  { unfold payload. induction fs as [|x fs IH]; [reflexivity|]. cbn [map concat fold_right]. rewrite blen_app, IH. reflexivity. }
  rewrite <- E. remember (payload (d :: a)) as s eqn:Es. clear Es E. destruct H; cbn [m_payload msg_text msg_binary msg_close msg_close_because msg_ping msg_pong]; rewrite ?blen_cons; lia.
Qed.

(** ** Frames of HTTP/2 *)
Definition is_named (n : string) (f : bytes * bytes) : bool := beq (fst f) (str n).
Definition is_plain (f : bytes * bytes) : bool := negb (existsb (beq (fst f)) pseudo_names).
Lemma four_kinds fs :
  list_octets (filter (is_named ":authority") fs) + list_octets (filter (is_named ":path") fs) + list_octets (filter (is_named ":scheme") fs) + list_octets (filter is_plain fs)
  <= list_octets fs.
Proof.
  assert (C : forall p f l, list_octets (filter p (f :: l)) = (if p f then field_octets f else 0) + list_octets (filter p l)).
  { intros p [n v] l. cbn [filter]. destruct (p (n, v)); [apply list_octets_cons|reflexivity]. }
  induction fs as [|[n v] fs IH]; [cbv; discriminate|]. rewrite !C, list_octets_cons. change (field_octets (n, v)) with (blen n + blen v).
  destruct (is_named ":authority" (n, v)) eqn:E1.
  { unfold is_named in E1. apply beq_eq in E1. cbn [fst] in E1. subst n. change (is_named ":path" (str ":authority", v)) with false.
    change (is_named ":scheme" (str ":authority", v)) with false. change (is_plain (str ":authority", v)) with false. cbv iota. lia. }
  destruct (is_named ":path" (n, v)) eqn:E2.
  { unfold is_named in E2. apply beq_eq in E2. cbn [fst] in E2. subst n.
    change (is_named ":scheme" (str ":path", v)) with false. change (is_plain (str ":path", v)) with false. cbv iota. lia. }
  destruct (is_named ":scheme" (n, v)) eqn:E3.
  { unfold is_named in E3. apply beq_eq in E3. cbn [fst] in E3. subst n. change (is_plain (str ":scheme", v)) with false. cbv iota. lia. }
  destruct (is_plain (n, v)); lia.
Qed.
Lemma find_octets (p : bytes * bytes -> bool) fs f : find p fs = Some f -> field_octets f <= list_octets (filter p fs).
Proof.
  induction fs as [|g fs IH]; [discriminate|]. cbn [find filter]. destruct (p g).
  - intros E. injection E as ->. cbn [list_octets fold_right]. lia.
  - exact IH.
Qed.
Lemma filter_rev_octets (p : bytes * bytes -> bool) fs : list_octets (filter p (rev fs)) = list_octets (filter p fs).
Proof.
  assert (A : forall a b, list_octets (a ++ b) = list_octets a + list_octets b).
  { induction a as [|[n v] a IH]; intros b; [reflexivity|]. cbn [app]. rewrite !list_octets_cons, IH. lia. }
  induction fs as [|f fs IH]; [reflexivity|]. cbn [rev]. rewrite filter_app, A, IH. cbn [filter]. destruct f as [n v]. destruct (p (n, v)); rewrite ?list_octets_cons; change (list_octets []) with 0; lia.
Qed.
Lemma last_octets n fs v : last_value n fs = Some v -> blen v <= list_octets (filter (is_named n) fs).
Proof.
  intros H. assert (X : option_map snd (find (is_named n) (rev fs)) = Some v) by exact H. clear H. rename X into H.
  destruct (find (is_named n) (rev fs)) as [f|] eqn:E; [|discriminate H]. cbn [option_map] in H. injection H as <-. apply find_octets in E.
  rewrite filter_rev_octets in E. unfold field_octets in E. lia.
Qed.
Lemma list_total (fs : list hfield) : list_octets fs + 32 * N.of_nat (length fs) = total_size fs.
Proof. induction fs as [|[n v] fs IH]; [reflexivity|]. rewrite list_octets_cons. cbn [total_size fold_right length size_of fst snd]. fold (total_size fs). unfold size_of. cbn [fst snd]. lia. Qed.
Lemma header_list_bound fs hs p : header_list fs hs p ->
  list_octets hs + opt_octets (pt_authority p) + opt_octets (pt_path p) + match pt_scheme p with Some s => blen (scheme_str s) | None => 0 end <= 3 * list_octets fs.
Proof.
  intros (_ & HA & _ & HP & HS & _ & ->). pose proof (four_kinds fs) as K.
  assert (A : opt_octets (pt_authority p) <= 3 * list_octets (filter (is_named ":authority") fs)).
  { unfold read_last in HA. destruct (last_value ":authority" fs) as [v|] eqn:E; [|rewrite HA; cbn; lia]. destruct HA as (a & L & ->). apply last_octets in E. apply lossy_bound in L. cbn [opt_octets]. lia. }
  assert (B : opt_octets (pt_path p) <= 3 * list_octets (filter (is_named ":path") fs)).
  { unfold read_last in HP. destruct (last_value ":path" fs) as [v|] eqn:E; [|rewrite HP; cbn; lia]. destruct HP as (a & L & ->). apply last_octets in E. apply lossy_bound in L. cbn [opt_octets]. lia. }
  assert (C : match pt_scheme p with Some s => blen (scheme_str s) | None => 0 end <= 3 * list_octets (filter (is_named ":scheme") fs)).
  { unfold read_last in HS. destruct (last_value ":scheme" fs) as [v|] eqn:E; [|rewrite HS; cbn; lia]. destruct HS as (a & (s & L & Ls & Es) & ->). apply last_octets in E. apply lossy_bound in L.
    assert (X : blen (scheme_str a) = blen s) by (apply scheme_named_bound; rewrite Es; apply scheme_named_spec; exact Ls). lia. }
  assert (D : list_octets (hm_insert_all [] (filter (fun f : hfield => negb (existsb (beq (fst f)) pseudo_names)) fs)) <= list_octets (filter is_plain fs))
    by exact (proj1 (add_bound (filter is_plain fs) [])).
  unfold hfield in *. lia.
Qed.
Lemma frame_bound t L l t' f rest : decoder_reach t -> bytes_ok l -> recv t L l = (t', Ok (f, rest)) ->
  kept f + 9 + blen rest <= blen l /\ forall h, f = FHeaders h -> headers_octets h <= 3 * L.
Proof.
  intros R B H. apply recv_iff in H as (a & -> & H); [|apply reach_inv, R|exact B]. rewrite blen_app.
  destruct H as [ty fl r id p l f t' Hp _ _ _ Hu H]. unfold frame_octets. rewrite blen_app, header_octets_blen.
  assert (Lu : blen l <= blen p) by (destruct Hu; rewrite ?blen_cons; lia).
  split.
  - assert (K : kept f <= blen l); [|lia]. destruct H; cbn [kept da_data pg_payload ga_debug pp_fields]; rewrite ?blen_app; change (list_octets []) with 0; lia.
  - intros h ->. inversion H as [|? ? ? fs ? hs q ? ? HT HL|? ? ? ? fs ? hs q ? ? ? HT HL| | | | | | | | |]; subst; unfold headers_octets; cbn [hf_fields hf_parts];
      apply header_list_bound in HL; pose proof (list_total fs); lia.
Qed.

(** ** The bound is reached *)
Lemma large_size : size_of large = 4096.
Proof. unfold size_of, large. cbn [fst snd]. unfold blen. rewrite repeat_length. cbn [length]. lia. Qed.
Lemma blow_up_read n : block_read 4096 [] (blow_up n) (repeat large (S n)) [large].
Proof.
  unfold blow_up. cbn [repeat]. refine (br_cons _ _ _ _ [large] _ _ _ _ (repeat_index _ _ _ _)).
  assert (E : [large] = rfc_add 4096 [] large). { unfold rfc_add. cbn [newest]. rewrite large_size. reflexivity. }
  rewrite E. apply (fr_inc_new _ _ [120] [1; 120] [120] (repeat 97 (N.to_nat 4063)) ([127; 224; 30] ++ repeat 97 (N.to_nat 4063))).
  - apply (sr_raw [1] [120]); [apply (int_short 7 0 1); cbv; reflexivity|cbn; lia|repeat constructor].
  - apply (lo_char 120 [] []); [left; lia|constructor].
  - apply sr_raw; [|cbn; lia|apply Forall_forall; intros x Hx; apply repeat_spec in Hx; subst x; cbv; reflexivity].
    replace (blen (repeat 97 (N.to_nat 4063))) with (2 ^ 7 - 1 + 3936) by (unfold blen; rewrite repeat_length; change (2 ^ 7 - 1) with 127; lia).
    apply (int_long 7 0 [224; 30] 3936), (tail_more 96 [30] 30); [lia|constructor; lia].
Qed.
Lemma blow_up_octets n : blen (blow_up n) = 4069 + N.of_nat n /\ list_octets (repeat large (S n)) = 4064 * (N.of_nat n + 1).
Proof.
  split.
  - unfold blow_up, blen. rewrite !app_length, !repeat_length. cbn [length]. lia.
  - rewrite list_octets_repeat. pose proof large_size as E. unfold size_of in E. unfold field_octets. lia.
Qed.
Lemma blow_up_decoded n : decode_headers hi_new (blow_up n) = (mkIdx [large] 4096 4096, Ok (repeat large (S n))).
Proof.
  change hi_new with (idx_of 4096 []). rewrite (decode_read 4096 [] (blow_up n) (repeat large (S n)) [large]); [|cbv; discriminate|apply blow_up_read].
  assert (E : total_size [large] = 4096) by (cbn [total_size fold_right]; rewrite large_size; reflexivity). unfold idx_of. rewrite E. reflexivity.
Qed.
Lemma large_collect L n : forall size h, L < size + 4096 * N.of_nat n -> exists hf, hdr_collect L size h (repeat large n) = (hf, Err (EHttp2 (DecoderErr HeaderIndexOutOfBounds))) \/ L < size.
Proof.
  induction n as [|n IH]; intros size h H; [exists h; right; lia|]. cbn [repeat hdr_collect].
  assert (E : blen (fst large) + blen (snd large) + 32 = 4096) by apply large_size. rewrite E.
  destruct (N.ltb_spec L (size + 4096)) as [K|K]; [exists h; left; reflexivity|].
  assert (F : exists h', hdr_field h large = Ok h') by (eexists; reflexivity). destruct F as [h' F]. rewrite F. cbn [try_].
  destruct (IH (size + 4096) h') as (hf & [X|X]); [lia| |lia]. exists hf. left. exact X.
Qed.
Lemma blow_up_refused h n L : is_priority (hf_flags h) = false -> L < 4096 * (N.of_nat n + 1) ->
  exists hf, headers_parse hi_new h (blow_up n) L = (mkIdx [large] 4096 4096, hf, Err (EHttp2 (DecoderErr HeaderIndexOutOfBounds))).
Proof.
  intros P H. unfold headers_parse. rewrite P, blow_up_decoded. destruct (large_collect L (S n) 0 h) as (hf & [X|X]); [lia| |lia].
  rewrite X. exists hf. reflexivity.
Qed.
