(** Lemmas on PUSH_PROMISE frames. *)
From Coq Require Import Ascii String NArith ZArith Lia Bool List ZifyBool ZifyNat ZifyN.
From Verif Require Import Base P_Base M_Std M_Helper M_Header M_Url M_Http1 S_Http1 S_Http1Api S_Map P_Map P_Helper P_Http1 P_Msg S_Utf8 S_Url P_Url P_UrlForm
  M_Hpack S_Hpack S_HpackApi P_HpackTable P_HpackCodec P_HpackSync M_Frame M_H2 S_Frame S_H2Api P_Frame P_Settings P_Ctl P_Data P_H2 P_H2Msg P_H2Req P_H2All.
Import ListNotations.
Local Open Scope N_scope.
Ltac Zify.zify_post_hook ::= Z.div_mod_to_equations.

Lemma remove_fresh h1 n v h2 : (forall e, In e h1 -> name_eq (fst e) n = false) -> name_eq n n = true ->
  hm_remove (h1 ++ (n, v) :: h2) n = (h1 ++ h2, Some v).
Proof.
  intros F E. induction h1 as [|[n' v'] h1 IH]; cbn [app hm_remove]; [rewrite E; reflexivity|].
  rewrite (F (n', v') (or_introl eq_refl) : name_eq n' n = false). rewrite IH; [reflexivity|]. intros e I. apply F. right. exact I.
Qed.
Lemma regular_spec_fresh fs n : regular fs -> Forall h2_char n -> hd_error n = Some 58 -> forall e, In e fs -> name_eq (fst e) n = false.
Proof.
  intros (R & _ & C) H S g J. unfold h2_names in R. rewrite Forall_forall in R, C. apply h2_name_neq; [exact (R g J)|exact H|].
  intros E. pose proof (C g J) as C1. cbn beta in C1. rewrite <- E in S. exact (C1 S).
Qed.
Definition pseudo m a s p : list hfield := [(str ":method", method_str m); (str ":authority", a); (str ":scheme", scheme_str s); (str ":path", p)].
Lemma parts_after fs m a s p : regular fs -> parts_encode_header (request_parts m a s p) fs = fs ++ pseudo m a s p.
Proof.
  intros R. unfold parts_encode_header, request_parts. cbn [pt_method pt_authority pt_scheme pt_path pt_status option_map opt_insert].
  pose proof h2_spec_names as H. cbn [map] in H. repeat match goal with K : Forall _ (_ :: _) |- _ => apply Forall_cons_iff in K as [? K] end.
  assert (N : forall (h : headers) n v, Forall h2_char (str n) -> hd_error (str n) = Some 58 -> (forall e, In e h -> name_eq (fst e) (str n) = false) ->
     hm_insert (fs ++ h) (str n) v = (fs ++ h) ++ [(str n, v)]).
  { intros h n v A B F. apply insert_fresh. intros e I. apply in_app_or in I as [I|I]; [|apply F, I]. eapply regular_spec_fresh; eassumption. }
  rewrite <- (app_nil_r fs) at 1. rewrite N; [|assumption|reflexivity|intros e []]. rewrite <- app_assoc. cbn [app].
  rewrite N; [|assumption|reflexivity|intros e [<-|[]]; reflexivity]. rewrite <- app_assoc. cbn [app].
  rewrite N; [|assumption|reflexivity|intros e [<-|[<-|[]]]; reflexivity]. rewrite <- app_assoc. cbn [app].
  rewrite N; [|assumption|reflexivity|intros e [<-|[<-|[<-|[]]]]; reflexivity]. rewrite <- app_assoc. reflexivity.
Qed.
Lemma encode_headers_app a : forall t b, encode_headers t (a ++ b) =
  (' (t1, x) <- encode_headers t a ;; ' (t2, y) <- encode_headers t1 b ;; Ok (t2, x ++ y)).
Proof.
  induction a as [|f a IH]; intros t b; cbn [app encode_headers].
  - cbn [bind]. destruct (encode_headers t b) as [[t2 y]| | |]; reflexivity.
  - destruct (encode_header t f) as [[t1 x]| | |]; try reflexivity. cbn [bind]. rewrite IH.
    destruct (encode_headers t1 a) as [[t2 y]| | |]; try reflexivity. cbn [bind].
    destruct (encode_headers t2 b) as [[t3 z]| | |]; try reflexivity. cbn [bind]. rewrite app_assoc. reflexivity.
Qed.
Lemma push_spec_step t h1 n v h2 b : (forall e, In e h1 -> name_eq (fst e) (str n) = false) -> name_eq (str n) (str n) = true ->
  push_spec (t, h1 ++ (str n, v) :: h2, b) n = (' (t', e) <- encode_header t (str n, v) ;; Ok (t', h1 ++ h2, b ++ e)).
Proof. intros F E. unfold push_spec. rewrite remove_fresh by assumption. reflexivity. Qed.
Lemma push_encode_spec max t id promised fs m a s p fl t1 b1 t2 b2 : regular fs ->
  encode_headers t (pseudo m a s p) = Ok (t1, b1) -> encode_headers t1 fs = Ok (t2, b2) ->
  id < 4294967296 -> promised < 4294967296 -> 4 + blen b1 < 16777216 -> blen b2 < 16777216 ->
  exists c cs, push_encode max t (mkPush id promised fs (request_parts m a s p) fl) =
    Ok (t2, frame_octets 5 (set_end_headers fl) id (octets4 promised ++ b1) ++ block_octets (set_end_headers fl) promised c cs) /\
    concat (c :: cs) = b2.
Proof.
  intros R E1 E2 I P L1 L2. destruct (block_chunks_spec max fs t1 t2 b2 [] E2) as (c & cs & H & C). exists c, cs. split; [|exact C].
  unfold push_encode. cbn [pp_parts pp_fields pp_flags pp_id pp_promised]. rewrite parts_after by exact R.
  pose proof h2_spec_names as HN. cbn [map] in HN. repeat match goal with K : Forall _ (_ :: _) |- _ => apply Forall_cons_iff in K as [? K] end.
  unfold pseudo in *. cbn [encode_headers] in E1.
  destruct (encode_header t (str ":method", method_str m)) as [[u1 x1]| | |] eqn:Q1; try discriminate E1. cbn [bind] in E1.
  destruct (encode_header u1 (str ":authority", a)) as [[u2 x2]| | |] eqn:Q2; try discriminate E1. cbn [bind] in E1.
  destruct (encode_header u2 (str ":scheme", scheme_str s)) as [[u3 x3]| | |] eqn:Q3; try discriminate E1. cbn [bind] in E1.
  destruct (encode_header u3 (str ":path", p)) as [[u4 x4]| | |] eqn:Q4; try discriminate E1. cbn [bind] in E1. injection E1 as -> <-.
  rewrite push_spec_step; [|eapply regular_spec_fresh; eauto|reflexivity]. rewrite Q1. cbn [bind].
  rewrite push_spec_step; [|eapply regular_spec_fresh; eauto|reflexivity]. rewrite Q2. cbn [bind].
  rewrite push_spec_step; [|eapply regular_spec_fresh; eauto|reflexivity]. rewrite Q3. cbn [bind].
  rewrite push_spec_step; [|eapply regular_spec_fresh; eauto|reflexivity]. rewrite Q4. cbn [bind app].
  rewrite app_nil_r. unfold block_encode. rewrite H. cbn [bind].
  rewrite block_frames_octets; [|exact P|].
  2:{ eapply Forall_impl; [|apply blen_concat_le]. intros d Hd. cbn beta in Hd. rewrite C in Hd. cbn [app] in Hd. lia. }
  rewrite app_nil_r in L1.
  assert (EB : x1 ++ x2 ++ x3 ++ x4 ++ [] = ((x1 ++ x2) ++ x3) ++ x4) by (rewrite app_nil_r, <- !app_assoc; reflexivity).
  rewrite EB.
  assert (LB : blen (((x1 ++ x2) ++ x3) ++ x4) + 4 < 16777216) by (rewrite <- EB, app_nil_r; lia).
  rewrite fh_encode_octets; [|exact LB|exact I]. unfold frame_octets. rewrite <- !app_assoc.
  unfold stream_encode. rewrite be_enc_4 by exact P. rewrite !blen_app. change (blen (octets4 promised)) with 4.
  do 3 f_equal. f_equal. lia.
Qed.
