(** Lemmas on whole requests (C113). *)
From Coq Require Import Ascii String NArith ZArith Lia Bool List ZifyBool ZifyNat ZifyN.
From Verif Require Import Base P_Base M_Std M_Helper M_Header M_Url M_Http1 S_Map S_Hex S_Http1 S_Http1Api P_Std P_Helper P_Header P_Chunk P_Map P_Http1 P_Msg
  S_Url S_Build P_Build3 S_Rfc9112 P_Rfc9112 S_RfcBody P_RfcBody S_RfcMessage S_Stream P_Stream.
Import ListNotations.
Local Open Scope N_scope.

Lemma te_found ls : Forall line_ok ls -> unconfused_names (map line_field ls) ->
  hm_get (map line_field ls) (str "transfer-encoding") = te_of (map line_field ls) /\
  hm_get (map line_field ls) (str "content-length") = cl_of (map line_field ls).
Proof.
  intros H U. assert (T : Forall (fun nv => Forall tchar (fst nv)) (map line_field ls)).
  { apply Forall_map. eapply Forall_impl; [|exact H]. intros l Hl. destruct Hl as [[_ Hl] _]. exact Hl. }
  unfold te_of, cl_of, rfc_get, unconfused_names in *. rewrite Forall_forall in *. split.
  - rewrite (get_find _ (str "transfer-encoding")); [reflexivity|apply tchars_b; reflexivity|].
    apply Forall_forall. intros nv I. split; [exact (T nv I)|apply (U nv I)].
  - rewrite (get_find _ (str "content-length")); [reflexivity|apply tchars_b; reflexivity|].
    apply Forall_forall. intros nv I. split; [exact (T nv I)|apply (U nv I)].
Qed.
Lemma body_len_small h z : hm_body_len h = Ok z -> (z < 2 ^ 63)%Z.
Proof.
  unfold hm_body_len. destruct (hm_get h (str "content-length")) as [v|]; [|intros H; injection H as <-; lia].
  destruct (value_isize v) as [y|e| |] eqn:E; try discriminate; intros H; injection H as <-; [|lia]. apply isize_exact in E. lia.
Qed.
Lemma chunked_longer c : blen (concat (chunked_data c)) < blen (chunked_text c).
Proof.
  destruct c as [cs k e ls]. unfold chunked_data, chunked_text. cbn [cd_chunks cd_zeros cd_ext cd_trailer].
  rewrite blen_app, blen_cons. assert (H : blen (concat (map ck_data cs)) <= blen (concat (map chunk_text cs))); [|lia].
  induction cs as [|c cs IH]; [cbn; lia|]. cbn [map concat]. rewrite !blen_app. unfold chunk_text at 1. rewrite !blen_app. lia.
Qed.
Lemma lax_length l ds rest : lax_body l ds rest -> (length ds < length l)%nat.
Proof.
  induction 1 as [line x y rest H|line d x y l ds rest H Hd Hs Hl IH]; rewrite !app_length; cbn [length]; lia.
Qed.
Lemma sized_split h l b r : hm_is_chunked h = false -> read_body h l = Ok (b, r) -> l = b ++ r /\ exists z, hm_body_len h = Ok z /\ z = Z.of_N (blen b).
Proof.
  intros Hc H. unfold read_body in H. rewrite Hc in H. destruct (hm_body_len h) as [z|e| |] eqn:E; try discriminate. cbn [bind] in H.
  destruct (Z.ltb_spec z 0); [discriminate|]. destruct (take_N (Z.to_N z) l) as [[b' r']|] eqn:T; [|discriminate]. injection H as <- <-.
  apply take_N_some in T as [-> T]. split; [reflexivity|]. exists z. split; [reflexivity|]. lia.
Qed.
Lemma chunked_iff h v : hm_get h (str "transfer-encoding") = v -> (hm_is_chunked h = true <-> exists w, v = Some w /\ substring (str "chunked") w).
Proof. intros <-. change (hm_is_chunked h) with (hm_is_contains h (str "transfer-encoding") (str "chunked")). apply hm_contains_word. Qed.

(** ** The body behind a conforming head *)
Lemma body_exact ls x rest : Forall line_ok ls -> unconfused_names (map line_field ls) -> rfc_framed (map line_field ls) x ->
  (read_body (map line_field ls) (body_wire x ++ rest) = Ok (body_meant x, rest) <-> body_readable (map line_field ls) x).
Proof.
  intros Hl U F. destruct (te_found ls Hl U) as [T C]. set (h := map line_field ls) in *.
  pose proof (chunked_iff h _ T) as CH.
  destruct F as [v c Hv Hf Hok Hcnt|v b Hv Hcl Hd|Hv Hcl]; cbn [body_wire body_meant body_readable].
  - destruct (hm_is_chunked h) eqn:Ec.
    + split.
      * intros H. split; [apply CH; reflexivity|]. unfold read_body in H. rewrite Ec in H.
        destruct (read_chunks _ _) as [[ds r]|e| |] eqn:E in H; try discriminate. cbn [bind] in H. injection H as _ ->.
        destruct (body_refused _ _ _ _ _ Hok Hcnt E) as [H4 H5].
        apply read_lax in E as [E _]. pose proof (lax_length _ _ _ E) as L.
        assert (E2 : read_chunks (S (length ds + length (chunked_data c))) (chunked_text c ++ rest) = Ok (ds, rest)) by (apply lax_read; [exact E|lia]).
        rewrite trailer_left in E2 by (assumption || lia).
        assert (E3 : skipn 2 (lines_text (cd_trailer c)) ++ rest = rest) by congruence.
        split; [exact H4|]. split; [exact H5|]. destruct (cd_trailer c) as [|l ls']; [reflexivity|]. exfalso.
        pose proof (lines_longer l ls') as LL. apply (f_equal (@length _)) in E3. rewrite app_length, skipn_length in E3. unfold blen in LL. lia.
      * intros (_ & Hp). unfold read_body. rewrite Ec.
        assert (E : lax_body (chunked_text c ++ rest) (chunked_data c) rest).
        { apply (read_lax (S (length (chunked_data c)))). apply body_read; [exact Hok|exact Hcnt|lia|exact Hp]. }
        rewrite (lax_read _ _ _ E); [reflexivity|]. pose proof (lax_length _ _ _ E). lia.
    + split.
      * intros H. exfalso. apply sized_split in H as [H _]; [|exact Ec]. apply app_inv_tail in H.
        pose proof (chunked_longer c) as L. rewrite H in L. lia.
      * intros (H & _). apply CH in H. discriminate.
  - assert (Ec : hm_is_chunked h = false).
    { destruct (hm_is_chunked h); [|reflexivity]. destruct (proj1 CH eq_refl) as (w & W & _). congruence. }
    split.
    + intros H. apply sized_split in H as (_ & z & Hz & ->); [|exact Ec]. apply body_len_small in Hz. lia.
    + intros H. unfold read_body. rewrite Ec, (body_len_decimal h v (blen b)); [|congruence|exact Hd|exact H]. cbn [bind].
      destruct (Z.ltb_spec (Z.of_N (blen b)) 0); [lia|]. rewrite N2Z.id, take_N_app by reflexivity. reflexivity.
  - assert (Ec : hm_is_chunked h = false).
    { destruct (hm_is_chunked h); [|reflexivity]. destruct (proj1 CH eq_refl) as (w & W & _). congruence. }
    split; [auto|]. intros _. unfold read_body. rewrite Ec, body_len_none by congruence. cbn [bind]. change (0 <? 0)%Z with false. cbv iota.
    change (Z.to_N 0) with 0.
    pose proof (take_N_app 0 [] rest eq_refl) as E0. cbn [app] in *. rewrite E0. reflexivity.
Qed.

(** ** Whole requests *)
Lemma parse_request_ok l q n : parse_request l = Ok (q, n) <-> req_parse req_default l = (q, Ok n).
Proof.
  unfold parse_request. destruct (req_parse req_default l) as [q' [n'|e| |]]; cbn [bind]; split; intros H; try discriminate; congruence.
Qed.
Lemma skipn_blen_app (a b : bytes) : skipn (N.to_nat (blen a)) (a ++ b) = b.
Proof. apply skipn_N_app. Qed.
Lemma head_consumed q m t v ls rest q' n : bytes_ok (rfc_request_text m t v ls ++ rest) -> rfc_request m t v ls ->
  method_str (q_method q') = m -> version_str (q_version q') = v ->
  req_parse q (rfc_request_text m t v ls ++ rest) = (q', Ok n) -> n = blen (rfc_request_text m t v ls).
Proof.
  intros Hb R Em Ev E. destruct (rfc_request_head m t v ls R) as (rs & R1 & R2). pose proof E as E0. apply request_exact in E0; [|exact Hb].
  destruct E0 as (w & rest' & k & t' & k' & hs & u & _ & _ & Hk & Hk' & _ & _ & ->). cbn [q_method q_version q_header] in *. subst m v.
  rewrite req_parse_eq, (req_parse_head q _ k t k' _ rest R2 Hk Hk') in E.
  destruct (req_url_of k t (add_fields [] (combine (map ln_name ls) rs))) as [u'|e| |] eqn:Eu; cbn [try_ fst snd] in E; try discriminate.
  apply (f_equal snd) in E. cbn [snd] in E. injection E as E. rewrite blen_app in E. lia.
Qed.
Lemma message_exact m rest : bytes_ok (message_text m ++ rest) -> message_ok m ->
  ((exists q, read_message parse_request q_header (message_text m ++ rest) = Ok (q, body_meant (rm_body m), rest) /\
      received_as m q) <-> message_readable m).
Proof.
  destruct m as [me t v ls x]. unfold message_ok, message_text, message_readable, head_readable, received_as, rm_fields.
  cbn [rm_method rm_target rm_version rm_lines rm_body]. intros Hb (R & F & U). rewrite <- app_assoc in *.
  set (hd := rfc_request_text me t v ls) in *.
  pose proof (rfc_request_exact req_default me t v ls (body_wire x ++ rest) Hb R) as X. fold hd in X.
  assert (Hl : Forall line_ok ls) by apply R.
  split.
  - intros (q & E & M1 & M2 & M3).
    assert (P : parse_request (hd ++ body_wire x ++ rest) = Ok (q, blen hd)).
    { unfold read_message in E. destruct (parse_request _) as [[q' n]|e| |] eqn:P in E; try discriminate. cbn [bind] in E.
      destruct (read_body _ _) as [[b r]|e| |] in E; try discriminate. cbn [bind] in E.
      assert (q' = q) by congruence. subst q'. rewrite P. repeat f_equal. apply parse_request_ok in P.
      exact (head_consumed _ _ _ _ _ _ _ _ Hb R M1 M2 P). }
    apply parse_request_ok in P as P0. split.
    + apply X. exists q. auto.
    + apply (body_exact ls x rest Hl U F). unfold read_message in E. rewrite P in E. cbn [bind] in E.
      rewrite M3, skipn_blen_app in E. destruct (read_body _ _) as [[b r]|e| |]; try discriminate. cbn [bind] in E. injection E as -> ->. reflexivity.
  - intros [A B]. apply X in A as (q & P & M1 & M2 & M3). exists q. apply parse_request_ok in P.
    split; [|auto]. unfold read_message. rewrite P. cbn [bind]. rewrite M3, skipn_blen_app.
    apply (body_exact ls x rest Hl U F) in B. rewrite B. reflexivity.
Qed.

(** Any number of them, one after the other. *)
Lemma messages_read ms rest : bytes_ok (concat (map message_text ms) ++ rest) -> Forall message_ok ms -> Forall message_readable ms ->
  exists got, read_messages parse_request q_header (length ms) (concat (map message_text ms) ++ rest) = Ok (got, rest) /\
    Forall2 (fun m g => received_as m (fst g) /\ snd g = body_meant (rm_body m)) ms got.
Proof.
  induction ms as [|m ms IH]; intros Hb Hok Hr.
  - exists []. split; [reflexivity|constructor].
  - cbn [map concat] in *. rewrite <- app_assoc in *.
    destruct (proj2 (message_exact m (concat (map message_text ms) ++ rest) Hb (Forall_inv Hok)) (Forall_inv Hr)) as (q & E & Q).
    destruct IH as (got & E2 & G); [apply bytes_ok_app in Hb; apply Hb|exact (Forall_inv_tail Hok)|exact (Forall_inv_tail Hr)|].
    exists ((q, body_meant (rm_body m)) :: got). split.
    + cbn [length read_messages]. rewrite E. cbn [bind]. rewrite E2. reflexivity.
    + constructor; [split; [exact Q|reflexivity]|exact G].
Qed.
