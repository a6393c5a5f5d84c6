(** Which URLs the HTTP/2 pseudo fields carry over (C55). *)
From Coq Require Import Ascii String NArith ZArith Lia Bool List ZifyBool ZifyNat ZifyN.
From Verif Require Import Base S_Utf8 P_Base M_Std P_Std M_Helper M_Header M_Url M_Http1 S_Http1 S_Http1Api S_Hex S_Map S_Url S_UrlAll S_Exact P_Helper P_Header P_Http1 P_Msg P_Chunk P_Map P_Url P_UrlForm P_UrlAll P_UrlExact
  M_Huffman M_Hpack M_Frame M_H2 S_H2Api S_H2Msg P_H2Req.
Import ListNotations.
Local Open Scope N_scope.
Ltac Zify.zify_post_hook ::= Z.div_mod_to_equations.

Lemma user_no_slash k us pw : user_part k us pw -> ~ In 47 k.
Proof.
  intros [|k0 a c t us' pw' Hk Ha Hc Ht _ _]; [intros []|]. rewrite !in_app_iff. cbn [In]. rewrite in_app_iff. cbn [In].
  intros [K|[K|[K|[K|[K|[]]]]]]; [exact (logins_no_slash _ Hk K)| |lia| |lia].
  - exact (part_notin 47 a Ha ltac:(unfold delim; cbn; tauto) K).
  - exact (secret_notin 47 t Ht ltac:(unfold delim; cbn; tauto) ltac:(lia) K).
Qed.
Lemma means_exact s d p u : url_means (scheme_str s ++ str "://" ++ d ++ p) u -> u_scheme u = s -> u_domain u = Some d -> u_path u = p -> s <> ScNone ->
  plain_url u.
Proof.
  intros H Es Ed Ep NS. remember (scheme_str s ++ str "://" ++ d ++ p) as l eqn:El.
  destruct H as [| s' k us pw h d' pp n pa p' qq q Hs Hk Hh [Dh Ud] Hpp Hpa Hqq Hnil | s' k h us pp n t pw r d' Hs Hk Hh _ Hpp Ht _ Hr [Dr _] | |];
    cbn [u_scheme u_path u_user u_pass u_domain u_port u_query] in *; try discriminate Ed.
  - injection Ed as ->. subst s' p'. apply app_inv_head in El. apply app_inv_head in El. pose proof (pct_len _ _ Dh) as L1.
    destruct Hpa as [|t p Ht [Dp Up]].
    + exfalso. rewrite Hnil in El by reflexivity. cbn [app] in El. rewrite app_nil_r in El.
      assert (K : In 47 (k ++ h ++ pp)) by (rewrite El; apply in_app_iff; right; left; reflexivity).
      rewrite !in_app_iff in K. destruct K as [K|[K|K]]; [exact (user_no_slash _ _ _ Hk K)| |exact (port_no _ _ _ 47 Hpp ltac:(tauto) K)].
      exact (part_notin 47 h Hh ltac:(unfold delim; cbn; tauto) K).
    + pose proof (pct_len _ _ Dp) as L2. pose proof (f_equal (@length N) El) as L. rewrite !app_length in L.
      assert (k = [] /\ pp = [] /\ qq = []) as (-> & -> & ->).
      { repeat split; match goal with |- ?x = [] => destruct x; [reflexivity|cbn [length] in *; lia] end. }
      cbn [app] in El. rewrite app_nil_r in El. cbn [length] in L.
      destruct (pct_same _ _ Dh) as [-> N1]; [cbn [length] in *; lia|]. destruct (pct_same _ _ Dp) as [<- N2]; [cbn [length] in *; lia|].
      unfold plain_url. cbn [u_scheme u_path u_user u_pass u_domain u_port u_query]. split; [exact Hs|]. split.
      { exists d. split; [reflexivity|]. apply Forall_forall. intros b Hb. rewrite Forall_forall in Hh. split; [apply Hh, Hb|intros ->; exact (N1 Hb)]. }
      split.
      { split; [reflexivity|]. constructor; [repeat split; cbn; lia|]. apply Forall_forall. intros b Hb. rewrite Forall_forall in Ht. destruct (Ht _ Hb) as (V & Q & A).
        assert (b <> 37) by (intros ->; apply N2; right; exact Hb). repeat split; assumption || lia || apply V. }
      split.
      { exists n. split; [reflexivity|]. inversion Hpp as [n' Hn|]; subst. exact Hn. }
      clear - Hk Hqq. remember (@nil N) as z eqn:Ez. destruct Hk as [|k0 a c t0 us' pw']; [|destruct k0; [destruct a|]; discriminate Ez]. subst. inversion Hqq. repeat split.
  - exfalso. injection Ed as ->. subst s' p. apply app_inv_head in El. apply app_inv_head in El. pose proof (pct_len _ _ Dr) as L1.
    pose proof (f_equal (@length N) El) as L. repeat (rewrite ?app_length in L; cbn [length] in L). change (length (str "/")) with 1%nat in L. lia.
Qed.
Lemma pseudo_exact m u : utf8_url u -> (parts_build_url (parts_request m u None) = Ok u <-> plain_url u).
Proof.
  intros (U1 & U2 & U3 & U4 & U5 & U6). unfold parts_build_url, parts_request. cbn [pt_authority pt_scheme pt_path]. split.
  - destruct (u_domain u) as [d|] eqn:Ed; [|discriminate]. cbn [opt_utf8] in U5. destruct (scheme_eqb (u_scheme u) ScNone) eqn:Es.
    + assert (En : u_scheme u = ScNone) by (destruct (u_scheme u); try discriminate; reflexivity). intros H.
      apply url_means_iff in H.
      * remember (scheme_str ScHttp ++ _) as l eqn:El. destruct H as [pa p qq q Hpa Hne Hq|s|s|s|s]; cbn [u_scheme] in En; try (subst; match goal with K : legal_scheme _ |- _ => inversion K end).
        exfalso. destruct Hpa as [|t p Ht _]; [congruence|]. discriminate El.
      * unfold bytes_ok. apply Forall_app. split; [apply bytes_okb_ok; reflexivity|]. apply Forall_app. split; [apply bytes_okb_ok; reflexivity|].
        apply Forall_app. split; [apply utf8_bytes_ok, U5|]. destruct (u_path u) as [|b p]; [apply bytes_okb_ok; reflexivity|apply utf8_bytes_ok, U2].
    + intros H. assert (NS : u_scheme u <> ScNone) by (intros K; rewrite K in Es; discriminate).
      apply url_means_iff in H.
      * destruct (u_path u) as [|b p] eqn:Ep.
        { exfalso. assert (G : u_path u <> []); [|congruence]. clear -H Ed NS.
          destruct H as [pa p qq q Hpa Hne Hq|s k us pw h d' pp n pa p' qq q Hs Hk Hh _ Hpp Hpa Hqq Hnil|s k h us pp n t pw r d' Hs Hk Hh _ Hpp Ht _ Hr [Dr _]| |]; cbn in *; try congruence.
          destruct Hpa as [|t p Ht [Dp _]]; [discriminate|]. destruct (pct_slash _ _ Dp) as [x ->]. discriminate. }
        exact (means_exact _ _ _ u H eq_refl Ed Ep NS).
      * unfold bytes_ok. apply Forall_app. split; [apply utf8_bytes_ok, U1|]. apply Forall_app. split; [apply bytes_okb_ok; reflexivity|].
        apply Forall_app. split; [apply utf8_bytes_ok, U5|]. destruct (u_path u) as [|b p]; [apply bytes_okb_ok; reflexivity|apply utf8_bytes_ok, U2].
  - intros (LS & (d & D & HC) & PP & (n & PN & DP) & UU & UP & UQ). destruct (plain_path_part _ PP) as (PA & NE & PU).
    rewrite D. assert (NS : scheme_eqb (u_scheme u) ScNone = false) by (apply legal_not_none, LS). rewrite NS.
    destruct (u_path u) as [|b p] eqn:Ep; [congruence|]. rewrite <- Ep in *. rewrite <- (app_nil_r (u_path u)) at 1.
    rewrite (url_default_port (u_scheme u) d (u_path u) (u_path u) [] None n LS HC PA); [|constructor|congruence|exact DP].
    destruct u as [us up uu ua ud upo uq]; cbn [u_scheme u_domain u_path u_port u_user u_pass u_query] in *. subst. reflexivity.
Qed.
