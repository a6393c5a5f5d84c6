(** Lemmas on chunked bodies (C112). *)
From Coq Require Import Ascii String NArith ZArith Lia Bool List ZifyBool ZifyNat ZifyN.
From Verif Require Import Base P_Base M_Std M_Helper M_Header M_Url M_Http1 S_Http1 S_Http1Api S_Hex P_Std P_Helper P_Header P_Chunk
  S_Url S_Rfc9112 P_Rfc9112 S_RfcBody.
Import ListNotations.
Local Open Scope N_scope.

(** ** The bodies that are accepted *)
Lemma skipn_N_app (a b : bytes) : skipn (N.to_nat (blen a)) (a ++ b) = b.
Proof. replace (N.to_nat (blen a)) with (length a) by (unfold blen; lia). rewrite skipn_app, skipn_all, Nat.sub_diag. reflexivity. Qed.
Lemma firstn_N_app (a b : bytes) : firstn (N.to_nat (blen a)) (a ++ b) = a.
Proof. replace (N.to_nat (blen a)) with (length a) by (unfold blen; lia). rewrite firstn_app, firstn_all, Nat.sub_diag. cbn. apply app_nil_r. Qed.
Lemma split_two (l : bytes) n : n + 2 <= blen l -> exists d x y r, l = d ++ x :: y :: r /\ blen d = n.
Proof.
  intros H. exists (firstn (N.to_nat n) l).
  destruct (skipn (N.to_nat n) l) as [|x [|y r]] eqn:E.
  - exfalso. apply (f_equal (@length N)) in E. rewrite skipn_length in E. unfold blen in H. cbn in E. lia.
  - exfalso. apply (f_equal (@length N)) in E. rewrite skipn_length in E. unfold blen in H. cbn in E. lia.
  - exists x, y, r. split; [rewrite <- E; symmetry; apply firstn_skipn|].
    unfold blen in *. rewrite firstn_length. lia.
Qed.
Lemma after_two (d : bytes) x y r : skipn (N.to_nat (blen d + 2)) (d ++ x :: y :: r) = r.
Proof.
  replace (d ++ x :: y :: r) with ((d ++ [x; y]) ++ r) by (rewrite <- app_assoc; reflexivity).
  replace (blen d + 2) with (blen (d ++ [x; y])) by (unfold blen; rewrite app_length; cbn; lia). apply skipn_N_app.
Qed.
Lemma blen_two (d : bytes) x y r : blen d + 2 <= blen (d ++ x :: y :: r).
Proof. unfold blen. rewrite app_length. cbn. lia. Qed.

Lemma step_end line x y rest fuel : size_line line 0 -> read_chunks (S fuel) (line ++ x :: y :: rest) = Ok ([], rest).
Proof.
  intros H. cbn [read_chunks]. assert (E : parse_chunk_data (line ++ x :: y :: rest) = Ok (blen line, 0)).
  { apply chunk_exact. exists line, (x :: y :: rest). repeat match goal with |- _ /\ _ => split end; try reflexivity; [exact H|].
    rewrite !blen_cons. lia. }
  rewrite E. cbn [bind]. rewrite skipn_N_app. reflexivity.
Qed.
Lemma step_more line d x y l fuel : size_line line (blen d) -> d <> [] -> blen d + 2 < 2 ^ 64 ->
  read_chunks (S fuel) (line ++ d ++ x :: y :: l) = (' (ds, l3) <- read_chunks fuel l ;; Ok (d :: ds, l3)).
Proof.
  intros H Hd Hs. cbn [read_chunks]. assert (E : parse_chunk_data (line ++ d ++ x :: y :: l) = Ok (blen line, blen d)).
  { apply chunk_exact. exists line, (d ++ x :: y :: l). repeat match goal with |- _ /\ _ => split end; try reflexivity; [exact H|exact Hs|].
    apply blen_two. }
  rewrite E. cbn [bind]. cbv zeta. rewrite skipn_N_app, firstn_N_app, after_two.
  destruct (blen d =? 0) eqn:Z; [|reflexivity]. destruct d; [contradiction|]. rewrite blen_cons in Z. lia.
Qed.
Lemma lax_read l ds rest : lax_body l ds rest -> forall fuel, (length ds < fuel)%nat -> read_chunks fuel l = Ok (ds, rest).
Proof.
  induction 1 as [line x y rest H|line d x y l ds rest H Hd Hs Hl IH]; intros fuel Hf; (destruct fuel as [|fuel]; [cbn in Hf; lia|]).
  - apply step_end, H.
  - rewrite step_more by assumption. rewrite IH by (cbn in Hf; lia). reflexivity.
Qed.
Lemma read_lax fuel : forall l ds rest, read_chunks fuel l = Ok (ds, rest) -> lax_body l ds rest /\ (length ds < fuel)%nat.
Proof.
  induction fuel as [|fuel IH]; intros l ds rest H; [discriminate|]. pose proof H as H0. cbn [read_chunks] in H.
  destruct (parse_chunk_data l) as [[off n]|e| |] eqn:E; try discriminate.
  apply chunk_exact in E as (line & r & -> & Hl & -> & Hn & Hr).
  destruct (split_two _ _ Hr) as (d & x & y & r' & -> & Hd). subst n.
  destruct d as [|b d].
  - cbn [app] in H0. rewrite (step_end line x y r' fuel Hl) in H0. injection H0 as <- <-. split; [|cbn; lia]. apply lax_end. exact Hl.
  - rewrite (step_more line (b :: d) x y r' fuel Hl) in H0 by (discriminate || exact Hn).
    destruct (read_chunks fuel r') as [[ds' l3]|e| |] eqn:E; try discriminate. cbn [bind] in H0. injection H0 as <- <-.
    apply IH in E as [E1 E2]. split; [|cbn; lia]. apply lax_more; [exact Hl|discriminate|exact Hn|exact E1].
Qed.
Lemma body_accepted fuel l ds rest : read_chunks fuel l = Ok (ds, rest) <-> lax_body l ds rest /\ (length ds < fuel)%nat.
Proof. split; [apply read_lax|]. intros [H1 H2]. apply lax_read; assumption. Qed.

(** ** The bodies of the RFC *)
Lemma crlf_eol : eol CRLF.
Proof. constructor. Qed.
Lemma hex_forall ds n : hex_num ds n -> Forall hex_byte ds.
Proof. induction 1; [constructor|]. apply Forall_app. split; [assumption|]. constructor; [|constructor]. eexists; eassumption. Qed.
Lemma eol_head e : eol e -> exists c z, e = c :: z /\ ~ hex_byte c /\ c <> 59.
Proof.
  intros H. destruct H; (eexists _, _; split; [reflexivity|]; split; [|discriminate]);
    intros X; apply is_hex_spec in X; vm_compute in X; discriminate.
Qed.
Lemma semi_not_hex : ~ hex_byte 59.
Proof. intros X. apply is_hex_spec in X. vm_compute in X. discriminate. Qed.
(** A size with an extension is refused. *)
Lemma ext_not_lax ds n e r bs rest : hex_num ds n -> (exists t, e = 59 :: t) -> ~ lax_body (ds ++ e ++ r) bs rest.
Proof.
  intros Hd [t ->] H. assert (X : exists line q m, ds ++ (59 :: t) ++ r = line ++ q /\ size_line line m).
  { remember (ds ++ (59 :: t) ++ r) as l eqn:El. destruct H; eexists _, _, _; (split; [reflexivity|eassumption]). }
  destruct X as (line & q & m & E & Hl). destruct Hl as [ds' m' e' Hn Hd' He]. rewrite <- app_assoc in E.
  destruct (eol_head _ He) as (c & z & -> & Hc & Hc').
  apply (span_cut hex_byte) in E as [_ E]; [|eapply hex_forall; eassumption|eapply hex_forall; eassumption|right; eexists _, _; split; [reflexivity|apply semi_not_hex]|right; eexists _, _; split; [reflexivity|exact Hc]].
  cbn in E. injection E as E _. congruence.
Qed.

Lemma repeat_zero k : hex_num (48 :: repeat 48 k) 0.
Proof.
  apply hex_num_spec. assert (H : forall k, forallb is_hex (repeat 48 k) = true) by (induction k0; [reflexivity|exact IHk0]).
  split; [apply (H (S k))|]. change (48 :: repeat 48 k) with (repeat 48 (S k)). generalize (S k). clear.
  intros n. assert (X : hex_num (repeat 48 n) 0); [|apply hex_num_spec in X as [_ X]; exact X].
  induction n as [|n IH]; [constructor|]. replace (repeat 48 (S n)) with (repeat 48 n ++ [48]).
  - change 0 with (16 * 0 + 0). apply hn_snoc; [exact IH|]. left. reflexivity.
  - clear IH. induction n as [|n IH]; [reflexivity|]. cbn in *. f_equal. exact IH.
Qed.
Lemma plain_size ds n : ds <> [] -> hex_num ds n -> size_line (ds ++ CRLF) n.
Proof. intros H1 H2. constructor; [exact H1|exact H2|apply crlf_eol]. Qed.
Lemma zero_line k : size_line ((48 :: repeat 48 k) ++ CRLF) 0.
Proof. apply plain_size; [discriminate|apply repeat_zero]. Qed.
Lemma trailer_two ls : exists x y w, lines_text ls = x :: y :: w.
Proof.
  unfold lines_text. destruct ls as [|[n a v t] ls]; [eexists _, _, _; reflexivity|].
  cbn [map concat]. unfold line_text at 1. cbn [ln_name ln_lead ln_value ln_trail].
  destruct n as [|b [|c n]]; cbn [app]; try (eexists _, _, _; reflexivity).
  destruct (((a ++ v ++ t ++ CRLF) ++ concat (map line_text ls)) ++ CRLF) as [|q w] eqn:E; [|eexists _, _, _; reflexivity].
  exfalso. apply app_eq_nil in E as [_ E]. discriminate.
Qed.
(** The texts up to the trailer section. *)
Lemma chunks_read cs tail : forall fuel, Forall chunk_ok cs -> Forall (fun c => blen (ck_data c) + 2 < 2 ^ 64) cs ->
  Forall (fun c => ck_ext c = []) cs ->
  read_chunks (length cs + fuel) (concat (map chunk_text cs) ++ tail) =
  (' (ds, l) <- read_chunks fuel tail ;; Ok (map ck_data cs ++ ds, l)).
Proof.
  induction cs as [|c cs IH]; intros fuel Hok Hc Hp.
  - cbn. destruct (read_chunks fuel tail) as [[a b]|e| |]; reflexivity.
  - pose proof (Forall_inv Hok) as (H1 & H2 & H3 & H4). pose proof (Forall_inv_tail Hok) as Hok'. inversion_clear Hc as [|? ? H5 Hc']. inversion_clear Hp as [|? ? H6 Hp'].
    cbn [map concat length plus]. unfold chunk_text at 1. rewrite H6. cbn [app].
    replace ((((ck_size c ++ CRLF ++ ck_data c ++ CRLF)) ++ concat (map chunk_text cs)) ++ tail)
      with ((ck_size c ++ CRLF) ++ ck_data c ++ CR :: LF :: (concat (map chunk_text cs) ++ tail))
      by (rewrite <- !app_assoc; reflexivity).
    rewrite step_more; [|apply plain_size; assumption|exact H4|exact H5].
    rewrite IH by assumption. destruct (read_chunks fuel tail) as [[a b]|e| |]; reflexivity.
Qed.
Lemma last_read k ls rest fuel : read_chunks (S fuel) ((48 :: repeat 48 k ++ CRLF ++ lines_text ls) ++ rest) = Ok ([], skipn 2 (lines_text ls) ++ rest).
Proof.
  destruct (trailer_two ls) as (x & y & w & E). rewrite E.
  replace ((48 :: repeat 48 k ++ CRLF ++ x :: y :: w) ++ rest) with (((48 :: repeat 48 k) ++ CRLF) ++ x :: y :: (w ++ rest))
    by (cbn; rewrite <- !app_assoc; reflexivity).
  apply step_end, zero_line.
Qed.
(** Without extensions, the trailer section is not recognised: two of its
    octets are skipped. *)
Lemma trailer_left b rest fuel : chunked_ok b -> counted b ->
  Forall (fun c => ck_ext c = []) (cd_chunks b) -> cd_ext b = [] -> (length (chunked_data b) < fuel)%nat ->
  read_chunks fuel (chunked_text b ++ rest) = Ok (chunked_data b, skipn 2 (lines_text (cd_trailer b)) ++ rest).
Proof.
  destruct b as [cs k e ls]. unfold chunked_ok, counted, chunked_data, chunked_text. cbn [cd_chunks cd_zeros cd_ext cd_trailer].
  intros (H1 & _ & _) H2 H3 -> Hf. rewrite map_length in Hf.
  replace fuel with (length cs + S (fuel - length cs - 1))%nat by lia. rewrite <- app_assoc.
  rewrite chunks_read by assumption. cbn [app]. change (48 :: (repeat 48 k ++ CRLF ++ lines_text ls) ++ rest)
    with ((48 :: repeat 48 k ++ CRLF ++ lines_text ls) ++ rest). rewrite last_read. cbn [bind]. rewrite app_nil_r. reflexivity.
Qed.
Lemma ext_cases e : chunk_ext e -> e = [] \/ exists t, e = 59 :: t.
Proof. intros [H|(t & H & _)]; [left|right; exists t]; assumption. Qed.
(** A body with an extension anywhere is never accepted. *)
Lemma ext_refused cs k e ls rest : forall ds r, Forall chunk_ok cs -> Forall (fun c => blen (ck_data c) + 2 < 2 ^ 64) cs -> chunk_ext e ->
  lax_body ((concat (map chunk_text cs) ++ 48 :: repeat 48 k ++ e ++ CRLF ++ lines_text ls) ++ rest) ds r ->
  Forall (fun c => ck_ext c = []) cs /\ e = [].
Proof.
  induction cs as [|c cs IH]; intros ds r Hok Hc He H.
  - split; [constructor|]. destruct (ext_cases _ He) as [->|X]; [reflexivity|]. exfalso.
    cbn [map concat app] in H. refine (ext_not_lax (48 :: repeat 48 k) 0 e (CRLF ++ lines_text ls ++ rest) ds r (repeat_zero k) X _).
    cbn [app] in *. rewrite <- !app_assoc in H. exact H.
  - pose proof (Forall_inv Hok) as (H1 & H2 & H3 & H4). pose proof (Forall_inv_tail Hok) as Hok'. inversion_clear Hc as [|? ? H5 Hc'].
    set (tl := 48 :: repeat 48 k ++ e ++ CRLF ++ lines_text ls) in *.
    cbn [map concat] in H. unfold chunk_text at 1 in H.
    replace ((((ck_size c ++ ck_ext c ++ CRLF ++ ck_data c ++ CRLF) ++ concat (map chunk_text cs)) ++ tl) ++ rest)
      with (ck_size c ++ ck_ext c ++ CRLF ++ ck_data c ++ CR :: LF :: ((concat (map chunk_text cs) ++ tl) ++ rest)) in H
      by (rewrite <- !app_assoc; reflexivity).
    destruct (ext_cases _ H3) as [Ee|X].
    + assert (G : exists ds', lax_body ((concat (map chunk_text cs) ++ tl) ++ rest) ds' r).
      { apply lax_read with (fuel := S (length ds)) in H; [|lia]. rewrite Ee in H. cbn [app] in H.
        replace (ck_size c ++ CRLF ++ ck_data c ++ CR :: LF :: ((concat (map chunk_text cs) ++ tl) ++ rest))
          with ((ck_size c ++ CRLF) ++ ck_data c ++ CR :: LF :: ((concat (map chunk_text cs) ++ tl) ++ rest)) in H
          by (rewrite <- !app_assoc; reflexivity).
        rewrite (step_more (ck_size c ++ CRLF) (ck_data c)) in H; [|apply plain_size; assumption|exact H4|exact H5].
        destruct (read_chunks (length ds) _) as [[ds' l3]|? | |] eqn:E in H; try discriminate. cbn [bind] in H. injection H as _ ->.
        exists ds'. eapply read_lax. exact E. }
      destruct G as [ds' G]. destruct (IH ds' r Hok' Hc' He G) as [G1 G2]. split; [constructor; assumption|exact G2].
    + exfalso. exact (ext_not_lax _ _ _ _ _ _ H2 X H).
Qed.
Lemma body_refused b rest fuel ds r : chunked_ok b -> counted b -> read_chunks fuel (chunked_text b ++ rest) = Ok (ds, r) ->
  Forall (fun c => ck_ext c = []) (cd_chunks b) /\ cd_ext b = [].
Proof.
  destruct b as [cs k e ls]. intros (H1 & H2 & _) H3 H. apply read_lax in H as [H _].
  exact (ext_refused cs k e ls rest ds r H1 H3 H2 H).
Qed.
Lemma lines_longer l ls : 2 < blen (lines_text (l :: ls)).
Proof. unfold lines_text, blen. cbn [map concat]. unfold line_text at 1. rewrite !app_length. cbn [length]. rewrite !app_length. cbn. lia. Qed.
Lemma body_read b rest fuel : chunked_ok b -> counted b -> (length (chunked_data b) < fuel)%nat ->
  (read_chunks fuel (chunked_text b ++ rest) = Ok (chunked_data b, rest) <-> plain b).
Proof.
  intros H1 H2 H3. split.
  - intros H. destruct (body_refused _ _ _ _ _ H1 H2 H) as [H4 H5]. split; [exact H4|]. split; [exact H5|].
    rewrite trailer_left in H by assumption. injection H as H. destruct (cd_trailer b) as [|l ls]; [reflexivity|]. exfalso.
    pose proof (lines_longer l ls) as L. revert H L. generalize (lines_text (l :: ls)). intros t H L.
    apply (f_equal (@length _)) in H. rewrite app_length in H. change (match t with [] => [] | _ :: l0 => match l0 with [] => [] | _ :: l1 => l1 end end) with (skipn 2 t) in H. rewrite skipn_length in H. unfold blen in L. lia.
  - intros (H4 & H5 & H6). rewrite trailer_left by assumption. rewrite H6. reflexivity.
Qed.
(** What the crate sends is such a body. *)
Lemma body_sent blocks : Forall (fun d => d <> []) blocks ->
  exists b, chunked_ok b /\ plain b /\ chunked_data b = blocks /\
    concat (map encode_chunk_data blocks) ++ encode_chunk_data [] = chunked_text b.
Proof.
  intros H. exists (mkChunked (map (fun d => mkChunk (hex_print (blen d)) [] d) blocks) 0 [] []).
  unfold chunked_ok, plain, chunked_data, chunked_text. cbn [cd_chunks cd_zeros cd_ext cd_trailer].
  repeat match goal with |- _ /\ _ => split end.
  - apply Forall_map. eapply Forall_impl; [|exact H]. intros d Hd. unfold chunk_ok. cbn [ck_size ck_ext ck_data].
    destruct (hex_print_num (blen d)) as [X1 X2]. repeat match goal with |- _ /\ _ => split end; [exact X2|exact X1|left; reflexivity|exact Hd].
  - left. reflexivity.
  - constructor.
  - apply Forall_map, Forall_forall. reflexivity.
  - reflexivity.
  - reflexivity.
  - rewrite map_map. cbn. apply map_id.
  - rewrite map_map. reflexivity.
Qed.
(** After the first size comes a line end or an extension. *)
Lemma ext_head e r : chunk_ext e -> exists c z, e ++ CRLF ++ r = c :: z /\ ~ hex_byte c /\ (c = CR \/ c = 59).
Proof.
  intros H. destruct (ext_cases _ H) as [->|[t ->]].
  - eexists _, _. split; [reflexivity|]. split; [|left; reflexivity]. intros X. apply is_hex_spec in X. vm_compute in X. discriminate.
  - eexists _, _. split; [reflexivity|]. split; [apply semi_not_hex|right; reflexivity].
Qed.
Lemma text_head b rest : chunked_ok b -> exists ds c z, chunked_text b ++ rest = ds ++ c :: z /\ Forall hex_byte ds /\ ~ hex_byte c /\ (c = CR \/ c = 59).
Proof.
  destruct b as [cs k e ls]. intros (H1 & H2 & _). unfold chunked_text. cbn [cd_chunks cd_zeros cd_ext cd_trailer] in *.
  destruct cs as [|c cs].
  - destruct (ext_head e (lines_text ls ++ rest) H2) as (c & z & E & H). exists (48 :: repeat 48 k), c, z.
    split; [|split; [eapply hex_forall, repeat_zero|exact H]]. rewrite <- E. cbn. rewrite <- !app_assoc. reflexivity.
  - pose proof (Forall_inv H1) as (X1 & X2 & X3 & X4). cbn [map concat]. unfold chunk_text at 1.
    set (tl := 48 :: _).
    destruct (ext_head (ck_ext c) (ck_data c ++ CRLF ++ concat (map chunk_text cs) ++ tl ++ rest) X3) as (d & z & E & H).
    exists (ck_size c), d, z. split; [|split; [eapply hex_forall, X2|exact H]]. rewrite <- E. rewrite <- !app_assoc. reflexivity.
Qed.
Lemma lax_example :
  read_chunks 3 (str "3" ++ [LF] ++ str "abcXY0" ++ [LF] ++ str "PQrest") = Ok ([str "abc"], str "rest") /\
  ~ (exists b rest, chunked_ok b /\ chunked_text b ++ rest = str "3" ++ [LF] ++ str "abcXY0" ++ [LF] ++ str "PQrest").
Proof.
  split; [vm_compute; reflexivity|]. intros (b & rest & H & E).
  destruct (text_head b rest H) as (ds & c & z & E' & Hd & Hc & Hx). rewrite E' in E.
  apply (span_cut hex_byte) in E as [_ E]; [|exact Hd| |right; eexists _, _; split; [reflexivity|exact Hc]|right; eexists _, _; split; [reflexivity|]].
  - cbn in E. injection E as E _. destruct Hx; subst c; discriminate.
  - apply Forall_cons; [apply is_hex_spec; vm_compute; reflexivity|apply Forall_nil].
  - intros X. apply is_hex_spec in X. vm_compute in X. discriminate.
Qed.
