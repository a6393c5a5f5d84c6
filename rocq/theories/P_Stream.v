(** Lemmas on connections that carry many messages. *)
From Coq Require Import Ascii String NArith ZArith Lia Bool List ZifyBool ZifyNat ZifyN.
From Verif Require Import Base P_Base S_Utf8 M_Std M_Helper M_Header M_Url M_Http1 M_Build S_Http1 S_Http1Api S_Map S_Hex S_Build S_Stream
  P_Std P_Helper P_Header P_Http1 P_Msg P_Chunk P_Map P_Build3 P_Build4.
Import ListNotations.
Local Open Scope N_scope.
Ltac Zify.zify_post_hook ::= Z.div_mod_to_equations.

(** A strict prefix of a concatenation ends in one of the two. *)
Lemma app_prefix {A} (a b p s : list A) : a ++ b = p ++ s -> s <> [] ->
  (exists t, a = p ++ t /\ t <> []) \/ exists t, p = a ++ t /\ b = t ++ s.
Proof.
  revert p. induction a as [|x a IH]; intros p E N.
  - right. exists p. split; [reflexivity|exact E].
  - destruct p as [|y p]; [left; exists (x :: a); split; [reflexivity|discriminate]|].
    cbn [app] in E. injection E as <- E. destruct (IH p E N) as [(t & -> & T)|(t & -> & T)]; [left|right]; exists t; split; auto.
Qed.

(** ** Bodies *)
Lemma chunk_prefix_read blocks : forall p s fuel, Forall (fun d => d <> [] /\ blen d + 2 < 2 ^ 64) blocks ->
  concat (map encode_chunk_data blocks) ++ encode_chunk_data [] = p ++ s -> s <> [] -> (length p < fuel)%nat ->
  read_chunks fuel p = partial.
Proof.
  induction blocks as [|d blocks IH]; intros p s fuel H E N F; (destruct fuel as [|fuel]; [lia|]); cbn [read_chunks map concat app] in *.
  - rewrite (chunk_encoded_prefix [] p s); [reflexivity|vm_compute; reflexivity|exact E|exact N].
  - inversion H as [|? ? [Hn Hd] Hrest]; subst. rewrite <- app_assoc in E.
    apply app_prefix in E; [|exact N]. destruct E as [(t & E & T)|(t & -> & E)].
    + rewrite (chunk_encoded_prefix d p t); [reflexivity|exact Hd|exact E|exact T].
    + destruct (chunk_encoded d t Hd) as (off & E1 & E2 & E3). rewrite E1. cbn [bind]. rewrite E2.
      destruct (blen d =? 0) eqn:Z; [destruct d; [contradiction|]; rewrite blen_cons in Z; lia|].
      replace (N.to_nat (blen d + 2)) with (length (d ++ CRLF)) by (rewrite app_length; unfold blen; cbn; lia).
      rewrite app_assoc, skipn_pre. rewrite (IH t s fuel Hrest E N); [reflexivity|]. rewrite app_length in F.
      assert (0 < blen (encode_chunk_data d)) by lia. unfold blen in *. lia.
Qed.
Lemma chunked_word : substring (str "chunked") (str "chunked").
Proof. exists [], []. reflexivity. Qed.
Lemma framed_chunked h f : framed h f -> hm_is_chunked h = match f with Chunked _ => true | Sized _ => false end.
Proof.
  intros F. destruct F as [T _|b v T _ _ _|cs T _].
  - destruct (hm_is_chunked h) eqn:K; [|reflexivity]. apply hm_contains_word in K as (v & K & _). congruence.
  - destruct (hm_is_chunked h) eqn:K; [|reflexivity]. apply hm_contains_word in K as (v' & K & _). congruence.
  - apply hm_contains_word. exists (str "chunked"). split; [exact T|exact chunked_word].
Qed.
Lemma encoded_nonempty d : encode_chunk_data d <> [].
Proof.
  unfold encode_chunk_data. intros E. apply (f_equal (@length N)) in E. rewrite !app_length in E. cbn in E. lia.
Qed.
Lemma blocks_length blocks : (length blocks <= length (concat (map encode_chunk_data blocks)))%nat.
Proof.
  induction blocks as [|d l IH]; [cbn; lia|]. cbn [map concat length]. rewrite app_length. pose proof (encoded_nonempty d).
  destruct (encode_chunk_data d); [contradiction|]. cbn [length]. lia.
Qed.
Lemma read_body_ok h f rest : framed h f -> read_body h (body_octets f ++ rest) = Ok (body_content f, rest).
Proof.
  intros F. unfold read_body. rewrite (framed_chunked h f F). destruct F as [T C|b v T C D L|cs T C]; cbn [body_octets body_content].
  - rewrite (body_len_none h C). cbn [bind app]. change (0 <? 0)%Z with false. cbv iota.
    pose proof (take_N_app 0 [] rest eq_refl) as E. cbn [app] in E. change (Z.to_N 0) with 0. rewrite E. reflexivity.
  - rewrite (body_len_decimal h v _ C D L). cbn [bind]. destruct (Z.of_N (blen b) <? 0)%Z eqn:K; [lia|]. rewrite N2Z.id.
    rewrite take_N_app by reflexivity. reflexivity.
  - rewrite <- app_assoc. rewrite chunks_roundtrip; [reflexivity| |exact C].
    rewrite !app_length. eapply Nat.le_lt_trans; [apply blocks_length|]. apply Nat.lt_succ_r, Nat.le_add_r.
Qed.
Lemma read_body_prefix h f p s : framed h f -> body_octets f = p ++ s -> s <> [] -> read_body h p = partial.
Proof.
  intros F E N. unfold read_body. rewrite (framed_chunked h f F). destruct F as [T C|b v T C D L|cs T C]; cbn [body_octets body_content] in *.
  - symmetry in E. apply app_eq_nil in E as [_ E]. contradiction.
  - rewrite (body_len_decimal h v _ C D L). cbn [bind]. destruct (Z.of_N (blen b) <? 0)%Z eqn:K; [lia|]. rewrite N2Z.id.
    replace (take_N (blen b) p) with (@None (bytes * bytes)); [reflexivity|]. symmetry. apply take_N_none. rewrite E, blen_app.
    destruct s; [contradiction|]. rewrite blen_cons. lia.
  - rewrite (chunk_prefix_read cs p s _ C E N); [reflexivity|lia].
Qed.

(** ** Any kind of message *)
Section Messages.
Context {A : Type} (parse : bytes -> res (A * N)) (header : A -> headers).
(** [w] is a head that is read as [a]. *)
Definition head_of (w : bytes) (a : A) : Prop :=
  (forall x, parse (w ++ x) = Ok (a, blen w)) /\ forall p s, w = p ++ s -> s <> [] -> parse p = partial.
Definition piece (m : bytes * A * body_form) : bytes := fst (fst m) ++ body_octets (snd m).
Definition good (m : bytes * A * body_form) : Prop := head_of (fst (fst m)) (snd (fst m)) /\ framed (header (snd (fst m))) (snd m).
Definition result (m : bytes * A * body_form) : A * bytes := (snd (fst m), body_content (snd m)).
Lemma read_piece m rest : good m -> read_message parse header (piece m ++ rest) = Ok (result m, rest).
Proof.
  destruct m as [[w a] f]. intros [[H _] F]. unfold read_message, piece, result. cbn [fst snd] in *. rewrite <- app_assoc, H. cbn [bind].
  replace (N.to_nat (blen w)) with (length w) by (unfold blen; lia). rewrite skipn_pre.
  rewrite (read_body_ok (header a) f rest F). reflexivity.
Qed.
Lemma read_piece_prefix m p s : good m -> piece m = p ++ s -> s <> [] -> read_message parse header p = partial.
Proof.
  destruct m as [[w a] f]. intros [[H P] F] E N. unfold read_message, piece in *. cbn [fst snd] in *.
  apply app_prefix in E; [|exact N]. destruct E as [(t & E & T)|(t & -> & E)].
  - rewrite (P p t E T). reflexivity.
  - rewrite H. cbn [bind]. replace (N.to_nat (blen w)) with (length w) by (unfold blen; lia). rewrite skipn_pre.
    rewrite (read_body_prefix (header a) f t s F E N). reflexivity.
Qed.
Lemma read_pieces ms rest : Forall good ms ->
  read_messages parse header (length ms) (concat (map piece ms) ++ rest) = Ok (map result ms, rest).
Proof.
  induction 1 as [|m ms G _ IH]; [reflexivity|]. cbn [map concat length read_messages]. rewrite <- app_assoc, read_piece by exact G.
  cbn [bind]. unfold result at 1. rewrite IH. reflexivity.
Qed.
Lemma read_pieces_prefix ms : Forall good ms -> forall p s, concat (map piece ms) = p ++ s -> s <> [] ->
  exists k r, (k < length ms)%nat /\ read_messages parse header k p = Ok (firstn k (map result ms), r) /\ read_message parse header r = partial.
Proof.
  induction 1 as [|m ms G _ IH]; intros p s E N; cbn [map concat] in E.
  - symmetry in E. apply app_eq_nil in E as [_ E]. contradiction.
  - apply app_prefix in E; [|exact N]. destruct E as [(t & E & T)|(t & -> & E)].
    + exists O, p. split; [cbn; lia|]. split; [reflexivity|]. exact (read_piece_prefix m p t G E T).
    + destruct (IH t s E N) as (k & r & L & K & R). exists (S k), r. split; [cbn; lia|]. split; [|exact R].
      cbn [read_messages map firstn]. rewrite read_piece by exact G. cbn [bind]. unfold result at 1. rewrite K. reflexivity.
Qed.
End Messages.

(** ** Requests *)
Lemma request_head_of m t v hs u : In m known_methods -> In v known_versions -> word t -> fields_ok hs -> distinct_names hs -> wire_url m t hs u ->
  head_of parse_request (request_text (method_str m) t (version_str v) hs) (mkReq m v u hs false).
Proof.
  intros M V W F D U. split.
  - intros x. unfold parse_request. rewrite (request_accept _ m t v hs u x) by assumption. reflexivity.
  - intros p s E N. unfold parse_request. pose proof (request_accept req_default m t v hs u [] M V W F D U) as A. rewrite app_nil_r in A.
    pose proof (req_prefix _ _ _ _ p s A E) as P. destruct (req_parse req_default p) as [q r]. cbn [snd] in P.
    rewrite P; [reflexivity|]. rewrite E, blen_app. destruct s; [contradiction|]. rewrite blen_cons. lia.
Qed.
Lemma send_request_pieces ms : Forall request_ok ms -> exists ps, send_all send_request ms = Ok (concat (map piece ps)) /\
  length ps = length ms /\ Forall (good parse_request q_header) ps /\ Forall2 same_request ms (map result ps).
Proof.
  induction 1 as [|[q f] ms G _ (ps & E & L & GS & S)]; [exists []; repeat split; constructor|].
  destruct G as (M & V & W & (u & U) & F & D & FR). cbn [fst snd] in *.
  exists ((request_text (method_str (q_method q)) (u_path (q_url q)) (version_str (q_version q)) (q_header q), mkReq (q_method q) (q_version q) u (q_header q) false, f) :: ps).
  split; [|split; [|split]].
  - cbn [send_all]. unfold send_request at 1. cbn [fst snd]. rewrite req_encode_text by assumption. cbn [bind]. rewrite E. reflexivity.
  - cbn [length]. rewrite L. reflexivity.
  - constructor; [|exact GS]. split; [apply request_head_of; assumption|exact FR].
  - cbn [map]. constructor; [|exact S]. unfold same_request, result. cbn [fst snd q_method q_version q_header q_partial q_url]. repeat (split; [reflexivity|]). split; [exact U|reflexivity].
Qed.
Lemma requests_stream ms : Forall request_ok ms -> exists w got, send_all send_request ms = Ok w /\ Forall2 same_request ms got /\
  (forall rest, read_messages parse_request q_header (length ms) (w ++ rest) = Ok (got, rest)) /\
  (forall p s, w = p ++ s -> s <> [] -> exists k r, (k < length ms)%nat /\
     read_messages parse_request q_header k p = Ok (firstn k got, r) /\ read_message parse_request q_header r = partial).
Proof.
  intros H. destruct (send_request_pieces ms H) as (ps & E & L & G & S). exists (concat (map piece ps)), (map result ps).
  split; [exact E|]. split; [exact S|]. rewrite <- L. split; [intros rest; apply read_pieces, G|]. intros p s K N. exact (read_pieces_prefix _ _ ps G p s K N).
Qed.

(** ** Responses *)
Lemma fields_text_bytes hs : fields_ok hs -> bytes_ok (fields_text hs).
Proof.
  unfold fields_text. intros H. apply Forall_app. split; [|repeat constructor].
  induction H as [|[n v] hs [N V] _ IH]; [constructor|]. cbn [map concat]. apply Forall_app. split; [|exact IH].
  unfold field_text. cbn [fst snd] in *. destruct N as [_ N]. destruct V as [V _]. apply Forall_app. split; [apply tchars_ok, N|].
  apply Forall_app. split; [repeat constructor|]. apply Forall_app. split; [exact V|repeat constructor].
Qed.
Lemma response_head_of c v rs hs : canonical_reason c = Some rs -> In v known_versions -> fields_ok hs -> distinct_names hs ->
  head_of parse_response (response_text (version_str v) (status_str c) rs hs) (mkResp c v hs false).
Proof.
  intros R V F D. destruct (canonical_reason_ok c rs R) as [C K]. split.
  - intros x. unfold parse_response. rewrite response_accept by assumption. reflexivity.
  - intros p s E N. unfold parse_response. pose proof (response_accept resp_default v c rs hs [] V C K F D) as A. rewrite app_nil_r in A.
    assert (B : bytes_ok (response_text (version_str v) (status_str c) rs hs)).
    { unfold response_text. rewrite status_str_three by exact C. apply Forall_app. split.
      { destruct V as [<-|[<-|[<-|[<-|[]]]]]; repeat constructor. }
      apply Forall_app. split; [repeat constructor|]. apply Forall_app. split; [unfold three_digits; repeat constructor; unfold byte_ok; lia|].
      apply Forall_app. split; [repeat constructor|]. apply Forall_app. split.
      { destruct K as (_ & K & _). apply (Forall_impl (P := fun b => 32 <= b <= 126)) with (2 := K). intros b ?. unfold byte_ok. lia. }
      apply Forall_app. split; [repeat constructor|]. apply fields_text_bytes, F. }
    pose proof (resp_prefix _ _ _ _ p s B A E) as P. destruct (resp_parse resp_default p) as [q r]. cbn [snd] in P.
    rewrite P; [reflexivity|]. rewrite E, blen_app. destruct s; [contradiction|]. rewrite blen_cons. lia.
Qed.
Lemma send_response_pieces ms : Forall response_ok ms -> exists ps, send_all send_response ms = Ok (concat (map piece ps)) /\
  length ps = length ms /\ Forall (good parse_response p_header) ps /\ Forall2 same_response ms (map result ps).
Proof.
  induction 1 as [|[q f] ms G _ (ps & E & L & GS & S)]; [exists []; repeat split; constructor|].
  destruct G as (V & (rs & R) & F & D & FR). cbn [fst snd] in *.
  exists ((response_text (version_str (p_version q)) (status_str (p_status q)) rs (p_header q), mkResp (p_status q) (p_version q) (p_header q) false, f) :: ps).
  split; [|split; [|split]].
  - cbn [send_all]. unfold send_response at 1. cbn [fst snd].
    destruct (response_roundtrip q resp_default rs (body_octets f) V R F D) as (w & E1 & -> & _). rewrite E1. cbn [bind]. rewrite E. reflexivity.
  - cbn [length]. rewrite L. reflexivity.
  - constructor; [|exact GS]. split; cbn [fst snd]; [apply response_head_of; assumption|exact FR].
  - cbn [map]. constructor; [|exact S]. split; reflexivity.
Qed.
Lemma responses_stream ms : Forall response_ok ms -> exists w got, send_all send_response ms = Ok w /\ Forall2 same_response ms got /\
  (forall rest, read_messages parse_response p_header (length ms) (w ++ rest) = Ok (got, rest)) /\
  (forall p s, w = p ++ s -> s <> [] -> exists k r, (k < length ms)%nat /\
     read_messages parse_response p_header k p = Ok (firstn k got, r) /\ read_message parse_response p_header r = partial).
Proof.
  intros H. destruct (send_response_pieces ms H) as (ps & E & L & G & S). exists (concat (map piece ps)), (map result ps).
  split; [exact E|]. split; [exact S|]. rewrite <- L. split; [intros rest; apply read_pieces, G|]. intros p s K N. exact (read_pieces_prefix _ _ ps G p s K N).
Qed.
