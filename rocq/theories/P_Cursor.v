(** Lemmas for C105: what a reader leaves in the buffer of its caller. *)
From Coq Require Import Ascii String NArith ZArith Lia Bool List ZifyBool ZifyNat ZifyN.
From Verif Require Import Base S_Utf8 P_Base M_Std P_Std M_Helper S_Http1 P_Helper M_Header M_Url M_Http1 S_Http1Api P_Header P_Http1 P_Msg S_Hex P_Chunk S_Url P_Url P_UrlForm S_UrlAll P_UrlAll S_Wait P_Wait S_Reject P_Reject M_Cursor S_Cursor.
Import ListNotations.
Local Open Scope N_scope.

(** ** The same outcomes as before *)
Definition agree {A} (m : out A) (p : res (A * bytes)) : Prop :=
  match p with
  | Ok (a, r) => m = (r, Ok a)
  | Err e => snd m = Err e
  | Panic => snd m = Panic
  | Diverge => snd m = Diverge
  end.
Lemma agree_ok {A} (m : out A) p a r : agree m p -> p = Ok (a, r) -> m = (r, Ok a).
Proof. intros H ->. exact H. Qed.
Lemma agree_bind {A B} (m : out A) p (k : A -> bytes -> out B) f :
  agree m p -> (forall a r, agree (k a r) (f (a, r))) -> agree (c_bind m k) (bind p f).
Proof.
  intros H K. destruct p as [[a r]|e| |]; cbn [agree bind] in *; [subst m; apply K|..]; destruct m as [r x]; cbn [snd] in H; subst x; reflexivity.
Qed.
Lemma agree_look {A} r (x : res A) : agree (r, x) (a <- x ;; Ok (a, r)).
Proof. destruct x; reflexivity. Qed.
Definition agree_s {S A B} (size : bytes -> B) (m : bytes * (S * res B)) (p : S * res A) (rest : A -> bytes) : Prop :=
  match p with
  | (s, Ok a) => m = (rest a, (s, Ok (size (rest a))))
  | (s, Err e) => snd m = (s, Err e)
  | (s, Panic) => snd m = (s, Panic)
  | (s, Diverge) => snd m = (s, Diverge)
  end.
Lemma agree_try {S A B C} (size : bytes -> B) (rest : C -> bytes) (s : S) (m : out A) p k f :
  agree m p -> (forall a r, agree_s size (k a r) (f (a, r)) rest) -> agree_s size (c_try s m k) (try_ s p f) rest.
Proof.
  intros H K. destruct p as [[a r]|e| |]; cbn [agree try_] in *; [subst m; apply K|..]; destruct m as [r x]; cbn [snd] in H; subst x; reflexivity.
Qed.

Lemma next_agree l : agree (c_next l) (next l).
Proof. destruct l; reflexivity. Qed.
Lemma expect_agree b e l : agree (c_expect b e l) (expect b e l).
Proof. apply agree_bind; [apply next_agree|]. intros c r. destruct (c =? b); reflexivity. Qed.
Lemma new_line_agree l : agree (c_new_line l) (skip_new_line l).
Proof.
  apply agree_bind; [apply next_agree|]. intros b r. destruct (b =? 13); [apply expect_agree|]. destruct (b =? 10); [reflexivity|]. destruct (b =? 32); reflexivity.
Qed.
Lemma empty_lines_agree l : agree (c_empty_lines l) (skip_empty_lines l).
Proof.
  induction l as [|l IH| |l IH|c l Hc|b l H1 H2] using skip_empty_lines_ind; try reflexivity; try exact IH.
  - cbn [c_empty_lines skip_empty_lines]. change (CR =? 13) with true. cbv iota. destruct (c =? 10) eqn:E; [apply N.eqb_eq in E; unfold LF in Hc; contradiction|reflexivity].
  - cbn [c_empty_lines skip_empty_lines]. apply N.eqb_neq in H1, H2. unfold CR, LF in *. rewrite H1, H2. reflexivity.
Qed.
Lemma spaces_agree l : agree (c_spaces l) (skip_spaces l).
Proof. induction l as [|b l IH]; [reflexivity|]. cbn [c_spaces skip_spaces]. destruct (b =? 32); [exact IH|reflexivity]. Qed.
Lemma token_by_agree f e b l : agree (c_token_by f e b l) (parse_token_by f e b l).
Proof.
  unfold c_token_by, parse_token_by. destruct (scan f l) as [[[|c t] [|d r]]|]; try reflexivity; destruct b; reflexivity.
Qed.
Lemma method_agree l : agree (c_method l) (parse_method l).
Proof. apply agree_bind; [apply token_by_agree|]. intros t r. apply agree_look. Qed.
Lemma version_agree l : agree (c_version l) (parse_version l).
Proof. apply agree_bind; [apply token_by_agree|]. intros t r. repeat match goal with |- context [if ?c then _ else _] => destruct c; [reflexivity|] end. reflexivity. Qed.
Lemma status_agree l : agree (c_status l) (parse_status l).
Proof. apply agree_bind; [apply token_by_agree|]. intros t r. apply agree_look. Qed.
Lemma header_line_agree l : agree (c_header_line l) (parse_header_line l).
Proof.
  unfold c_header_line, parse_header_line. apply agree_bind; [apply token_by_agree|]. intros n r1. apply agree_bind; [apply spaces_agree|]. intros [] r2.
  apply agree_bind; [apply expect_agree|]. intros [] r3. apply agree_bind; [apply spaces_agree|]. intros [] r4.
  apply agree_bind; [apply token_by_agree|]. intros v r5. apply agree_bind; [apply new_line_agree|]. intros [] r6. reflexivity.
Qed.
Lemma header_loop_agree f : forall h l, agree_s (fun _ => tt) (c_header_loop f h l) (parse_header_loop f h l) (fun r => r).
Proof.
  induction f as [|f IH]; intros h l; [reflexivity|]. destruct l as [|b l]; [reflexivity|]. cbn [c_header_loop parse_header_loop].
  destruct (b =? 13).
  - unfold c_expect, expect. destruct l as [|c l]; [reflexivity|]. cbn [c_next next c_bind bind]. destruct (c =? 10); reflexivity.
  - destruct (b =? 10); [reflexivity|]. pose proof (header_line_agree (b :: l)) as H.
    destruct (parse_header_line (b :: l)) as [[[n v] r]|e| |]; cbn [agree] in H.
    + rewrite H. cbn [c_try]. apply IH.
    + destruct (c_header_line (b :: l)) as [r x]. cbn [snd] in H. subst x. reflexivity.
    + destruct (c_header_line (b :: l)) as [r x]. cbn [snd] in H. subst x. reflexivity.
    + destruct (c_header_line (b :: l)) as [r x]. cbn [snd] in H. subst x. reflexivity.
Qed.
Lemma header_agree l : agree_s (fun _ => tt) (c_header l) (parse_header l) (fun r => r).
Proof. apply header_loop_agree. Qed.
Lemma request_agree q l : agree_s (fun r => blen l - blen r) (c_request q l) (req_parse_buffer q l) (fun r => r).
Proof.
  unfold c_request, req_parse_buffer. cbv zeta. apply agree_try; [apply empty_lines_agree|]. intros [] l1.
  apply agree_try; [apply method_agree|]. intros m l2. apply agree_try; [apply spaces_agree|]. intros [] l3.
  apply agree_try; [apply token_by_agree|]. intros t l4. apply agree_try; [apply spaces_agree|]. intros [] l5.
  apply agree_try; [apply version_agree|]. intros v l6. apply agree_try; [apply new_line_agree|]. intros [] l7.
  pose proof (header_agree l7) as H. destruct (parse_header l7) as [h [rest|e| |]]; cbn [agree_s] in H.
  - rewrite H. cbn [c_try try_]. destruct (req_url_of m t h) as [u|e| |]; reflexivity.
  - destruct (c_header l7) as [r [h' x]]. cbn [snd] in H. injection H as -> ->. reflexivity.
  - destruct (c_header l7) as [r [h' x]]. cbn [snd] in H. injection H as -> ->. reflexivity.
  - destruct (c_header l7) as [r [h' x]]. cbn [snd] in H. injection H as -> ->. reflexivity.
Qed.
Lemma response_agree p l : agree_s (fun r => blen l - blen r) (c_response p l) (resp_parse_buffer p l) (fun r => r).
Proof.
  unfold c_response, resp_parse_buffer. cbv zeta. apply agree_try; [apply empty_lines_agree|]. intros [] l1.
  apply agree_try; [apply version_agree|]. intros v l2. apply agree_try; [apply spaces_agree|]. intros [] l3.
  apply agree_try; [apply status_agree|]. intros s l4. apply agree_try; [apply spaces_agree|]. intros [] l5.
  apply agree_try; [apply token_by_agree|]. intros t l6. apply agree_try; [apply new_line_agree|]. intros [] l7.
  pose proof (header_agree l7) as H. destruct (parse_header l7) as [h [rest|e| |]]; cbn [agree_s] in H.
  - rewrite H. reflexivity.
  - destruct (c_header l7) as [r [h' x]]. cbn [snd] in H. injection H as -> ->. reflexivity.
  - destruct (c_header l7) as [r [h' x]]. cbn [snd] in H. injection H as -> ->. reflexivity.
  - destruct (c_header l7) as [r [h' x]]. cbn [snd] in H. injection H as -> ->. reflexivity.
Qed.
Lemma request_same q l : snd (c_request q l) = req_parse q l.
Proof.
  pose proof (request_agree q l) as H. rewrite req_parse_eq. destruct (req_parse_buffer q l) as [q' [r|e| |]]; cbn [agree_s fst snd] in *; try exact H. rewrite H. reflexivity.
Qed.
Lemma response_same p l : snd (c_response p l) = resp_parse p l.
Proof.
  pose proof (response_agree p l) as H. rewrite resp_parse_eq. destruct (resp_parse_buffer p l) as [q' [r|e| |]]; cbn [agree_s fst snd] in *; try exact H. rewrite H. reflexivity.
Qed.
Lemma request_buffer q l q' e : snd (c_request q l) = (q', Err e) -> req_parse_buffer q l = (q', Err e).
Proof.
  pose proof (request_agree q l) as H. destruct (req_parse_buffer q l) as [q0 [r|x| |]]; cbn [agree_s] in H; intros K; rewrite H in K; cbn [snd] in K; congruence.
Qed.
Lemma response_buffer p l p' e : snd (c_response p l) = (p', Err e) -> resp_parse_buffer p l = (p', Err e).
Proof.
  pose proof (response_agree p l) as H. destruct (resp_parse_buffer p l) as [q0 [r|x| |]]; cbn [agree_s] in H; intros K; rewrite H in K; cbn [snd] in K; congruence.
Qed.

(** ** Nothing is put into the buffer *)
Lemma tail_refl l : tail_of l l. Proof. exists []. reflexivity. Qed.
Lemma tail_trans a b c : tail_of a b -> tail_of b c -> tail_of a c.
Proof. intros [x ->] [y ->]. exists (x ++ y). rewrite app_assoc. reflexivity. Qed.
Lemma tail_cons b l r : tail_of l r -> tail_of (b :: l) r.
Proof. intros [x ->]. exists (b :: x). reflexivity. Qed.
Lemma tail_bind {A B} l (m : out A) (k : A -> bytes -> out B) : tail_of l (fst m) -> (forall a r, tail_of r (fst (k a r))) -> tail_of l (fst (c_bind m k)).
Proof. intros H K. destruct m as [r [a|e| |]]; cbn [c_bind fst] in *; try exact H. exact (tail_trans _ _ _ H (K a r)). Qed.
Lemma tail_try {S A B} (s : S) l (m : out A) (k : A -> bytes -> bytes * (S * res B)) :
  tail_of l (fst m) -> (forall a r, tail_of r (fst (k a r))) -> tail_of l (fst (c_try s m k)).
Proof. intros H K. destruct m as [r [a|e| |]]; cbn [c_try fst] in *; try exact H. exact (tail_trans _ _ _ H (K a r)). Qed.
Lemma next_tail l : tail_of l (fst (c_next l)).
Proof. destruct l as [|b l]; [apply tail_refl|]. apply tail_cons, tail_refl. Qed.
Lemma expect_tail b e l : tail_of l (fst (c_expect b e l)).
Proof. apply tail_bind; [apply next_tail|]. intros. apply tail_refl. Qed.
Lemma new_line_tail l : tail_of l (fst (c_new_line l)).
Proof.
  apply tail_bind; [apply next_tail|]. intros b r. destruct (b =? 13); [apply expect_tail|]. destruct (b =? 10); [apply tail_refl|]. destruct (b =? 32); apply tail_refl.
Qed.
Lemma empty_lines_tail l : tail_of l (fst (c_empty_lines l)).
Proof.
  induction l as [|l IH| |l IH|c l Hc|b l H1 H2] using skip_empty_lines_ind; cbn [c_empty_lines].
  - apply tail_refl.
  - change (LF =? 13) with false. change (LF =? 10) with true. cbv iota. apply tail_cons, IH.
  - apply tail_cons, tail_refl.
  - change (CR =? 13) with true. change (LF =? 10) with true. cbv iota. apply tail_cons, tail_cons, IH.
  - change (CR =? 13) with true. cbv iota. destruct (c =? 10) eqn:E; [apply N.eqb_eq in E; unfold LF in Hc; contradiction|]. apply tail_cons, tail_cons, tail_refl.
  - apply N.eqb_neq in H1, H2. unfold CR, LF in *. rewrite H1, H2. apply tail_refl.
Qed.
Lemma spaces_tail l : tail_of l (fst (c_spaces l)).
Proof. induction l as [|b l IH]; [apply tail_refl|]. cbn [c_spaces]. destruct (b =? 32); [apply tail_cons, IH|apply tail_refl]. Qed.
Lemma token_by_tail f e b l : tail_of l (fst (c_token_by f e b l)).
Proof.
  unfold c_token_by. destruct (scan f l) as [[t r]|] eqn:S; [|apply tail_refl]. apply scan_some in S as (-> & _ & c & r' & -> & _).
  destruct t as [|d t]; [|exists (d :: t); reflexivity]. destruct b; [|apply tail_refl]. apply tail_cons, tail_refl.
Qed.
Lemma method_tail l : tail_of l (fst (c_method l)).
Proof. apply tail_bind; [apply token_by_tail|]. intros. apply tail_refl. Qed.
Lemma version_tail l : tail_of l (fst (c_version l)).
Proof. apply tail_bind; [apply token_by_tail|]. intros. apply tail_refl. Qed.
Lemma status_tail l : tail_of l (fst (c_status l)).
Proof. apply tail_bind; [apply token_by_tail|]. intros. apply tail_refl. Qed.
Lemma header_line_tail l : tail_of l (fst (c_header_line l)).
Proof.
  unfold c_header_line. apply tail_bind; [apply token_by_tail|]. intros n r1. apply tail_bind; [apply spaces_tail|]. intros [] r2.
  apply tail_bind; [apply expect_tail|]. intros [] r3. apply tail_bind; [apply spaces_tail|]. intros [] r4.
  apply tail_bind; [apply token_by_tail|]. intros v r5. apply tail_bind; [apply new_line_tail|]. intros [] r6. apply tail_refl.
Qed.
Lemma header_loop_tail f : forall h l, tail_of l (fst (c_header_loop f h l)).
Proof.
  induction f as [|f IH]; intros h l; [apply tail_refl|]. destruct l as [|b l]; [apply tail_refl|]. cbn [c_header_loop].
  destruct (b =? 13); [apply tail_cons, tail_try; [apply expect_tail|intros; apply tail_refl]|].
  destruct (b =? 10); [apply tail_cons, tail_refl|]. apply tail_try; [apply header_line_tail|]. intros [n v] r. apply IH.
Qed.
Lemma request_tail q l : tail_of l (fst (c_request q l)).
Proof.
  unfold c_request. cbv zeta. apply tail_try; [apply empty_lines_tail|]. intros [] l1. apply tail_try; [apply method_tail|]. intros m l2.
  apply tail_try; [apply spaces_tail|]. intros [] l3. apply tail_try; [apply token_by_tail|]. intros t l4. apply tail_try; [apply spaces_tail|]. intros [] l5.
  apply tail_try; [apply version_tail|]. intros v l6. apply tail_try; [apply new_line_tail|]. intros [] l7.
  pose proof (header_loop_tail (S (length l7)) [] l7) as H. fold (c_header l7) in H. destruct (c_header l7) as [l8 [h o]]. cbn [fst] in H.
  apply tail_try; [exact H|]. intros [] r. apply tail_try; [apply tail_refl|]. intros. apply tail_refl.
Qed.
Lemma response_tail p l : tail_of l (fst (c_response p l)).
Proof.
  unfold c_response. cbv zeta. apply tail_try; [apply empty_lines_tail|]. intros [] l1. apply tail_try; [apply version_tail|]. intros m l2.
  apply tail_try; [apply spaces_tail|]. intros [] l3. apply tail_try; [apply status_tail|]. intros t l4. apply tail_try; [apply spaces_tail|]. intros [] l5.
  apply tail_try; [apply token_by_tail|]. intros v l6. apply tail_try; [apply new_line_tail|]. intros [] l7.
  pose proof (header_loop_tail (S (length l7)) [] l7) as H. fold (c_header l7) in H. destruct (c_header l7) as [l8 [h o]]. cbn [fst] in H.
  apply tail_try; [exact H|]. intros [] r. apply tail_refl.
Qed.

(** ** Every failed head with what it leaves *)
Lemma eol_left_run l e r : eol_left l e r -> c_new_line l = (r, Err e).
Proof.
  intros [| |b x H|b x (H1 & H2 & H3)]; [reflexivity..| |].
  - unfold c_new_line. cbn [c_next c_bind]. change (CR =? 13) with true. cbv iota. unfold c_expect. cbn [c_next c_bind]. apply N.eqb_neq in H. unfold LF in H. rewrite H. reflexivity.
  - unfold c_new_line. cbn [c_next c_bind]. apply N.eqb_neq in H1, H2, H3. unfold CR, LF, SP in *. rewrite H1, H2, H3. reflexivity.
Qed.
Lemma eol_bad_left l e : eol_bad l e -> exists r, eol_left l e r.
Proof. intros [| |b x H|b x H]; eexists; econstructor; exact H. Qed.
Lemma line_left_run x e y : line_left (CR :: x) e y -> c_expect 10 (EHttp NewLine) x = (y, Err e).
Proof.
  intros H. inversion H; subst; [reflexivity|]. unfold c_expect. cbn [c_next c_bind].
  match goal with K : _ <> LF |- _ => apply N.eqb_neq in K; unfold LF in K; rewrite K end. reflexivity.
Qed.
Lemma line_bad_left l e : line_bad l e -> exists r, line_left l e r.
Proof. intros [| |b x H]; eexists; econstructor; exact H. Qed.
Lemma blank_left_run bl x e y : blanks bl -> line_left x e y -> c_empty_lines (bl ++ x) = (y, Err e).
Proof.
  intros B X. induction B as [|l _ IH|l _ IH]; [|exact IH|exact IH]. destruct X as [| |b r H]; [reflexivity..|].
  cbn [app c_empty_lines]. change (CR =? 13) with true. cbv iota. apply N.eqb_neq in H. unfold LF in H. rewrite H. reflexivity.
Qed.
Lemma word_left_run f P e0 l e : (forall b, f b = true <-> P b) -> word_bad P e0 l e -> c_token_by f e0 false l = (l, Err e).
Proof.
  intros HP [w W|b r B]; unfold c_token_by.
  - assert (S : scan f w = None) by (apply scan_none, (forallb_Forall f P); [exact HP|exact W]). rewrite S. reflexivity.
  - cbn [scan]. destruct (f b) eqn:E; [apply HP in E; contradiction|]. reflexivity.
Qed.
Lemma token_left_run l e : word_bad vchar (EHttp Token) l e -> c_token l = (l, Err e).
Proof. apply word_left_run. apply token_vchar. Qed.
Lemma reason_left_run l e : word_bad reason_char (EHttp Token) l e -> c_status_token l = (l, Err e).
Proof. apply word_left_run. apply status_token_spec. Qed.
Lemma word_token w b r : word w -> ~ vchar b -> c_token (w ++ b :: r) = (b :: r, Ok w).
Proof. intros W B. apply (agree_ok _ _ _ _ (token_by_agree _ _ _ _)). apply parse_token_word; [exact W|apply not_tok; exact B]. Qed.
Lemma named_bad_left K e0 l e : named_bad K e0 l e -> exists r, named_left K e0 l e r.
Proof. intros [x e' H|w b r W B N]; eexists; econstructor; eassumption. Qed.
Lemma method_left_run l e r : named_left a_method (EHttp MethodErr) l e r -> c_method l = (r, Err e).
Proof.
  intros [x e' H|w b x W B N]; unfold c_method.
  - rewrite (token_left_run _ _ H). reflexivity.
  - rewrite word_token by assumption. cbn [c_bind]. f_equal. assert (K : named_bad a_method (EHttp MethodErr) (w ++ b :: x) (EHttp MethodErr)) by (constructor; assumption).
    apply method_bad_iff in K. unfold parse_method in K. rewrite parse_token_word in K by (try apply not_tok; assumption). cbn [bind] in K. destruct (method_of_str w); cbn [bind] in K; congruence.
Qed.
Lemma status_left_run l e r : named_left a_status (EHttp InvalidStatusCode) l e r -> c_status l = (r, Err e).
Proof.
  intros [x e' H|w b x W B N]; unfold c_status.
  - rewrite (token_left_run _ _ H). reflexivity.
  - rewrite word_token by assumption. cbn [c_bind]. f_equal. assert (K : named_bad a_status (EHttp InvalidStatusCode) (w ++ b :: x) (EHttp InvalidStatusCode)) by (constructor; assumption).
    apply status_bad_iff in K. unfold parse_status in K. rewrite parse_token_word in K by (try apply not_tok; assumption). cbn [bind] in K. destruct (status_from_bytes w); cbn [bind] in K; congruence.
Qed.
Lemma version_left_run l e r : named_left a_version (EHttp VersionErr) l e r -> c_version l = (r, Err e).
Proof.
  intros [x e' H|w b x W B N]; unfold c_version.
  - rewrite (token_left_run _ _ H). reflexivity.
  - rewrite word_token by assumption. cbn [c_bind]. f_equal. assert (K : named_bad a_version (EHttp VersionErr) (w ++ b :: x) (EHttp VersionErr)) by (constructor; assumption).
    apply version_bad_iff in K. unfold parse_version in K. rewrite parse_token_word in K by (try apply not_tok; assumption). cbn [bind] in K.
    repeat match goal with |- context [if ?c then _ else _] => destruct c; [discriminate K|] end. reflexivity.
Qed.
Lemma spaces_all i : c_spaces (spaces i) = ([], partial).
Proof. induction i as [|i IH]; [reflexivity|exact IH]. Qed.
Lemma gap_left {S A B} (s : S) (p : bytes -> out A) (k : A -> bytes -> bytes * (S * res B)) x y z e : p [] = ([], partial) -> spaced x y -> p y = (z, Err e) ->
  c_try s (c_spaces x) (fun _ l => c_try s (p l) k) = (z, (s, Err e)).
Proof.
  intros P0 Y E. destruct (spaced_some _ _ Y) as [[-> _]|(b & r & -> & K)].
  - destruct Y as (i & -> & _). rewrite app_nil_r, spaces_all. rewrite P0 in E. unfold partial in E. injection E as <- <-. reflexivity.
  - rewrite (agree_ok _ _ _ _ (spaces_agree x) K). cbn [c_try]. rewrite E. reflexivity.
Qed.

Lemma field_bad_left l e : field_bad l e -> exists r, field_left l e r.
Proof.
  intros [n N|b r B|n i N|n i b r N B1 B2 B3|n i j v N V1 V2|n i j v x e' N V V0 X|n i j x e' N X]; try (eexists; econstructor; eassumption).
  - apply line_bad_left in X as [y Y]. exists y. apply fl_value_end; assumption.
  - apply eol_bad_left in X as [y Y]. exists y. apply fl_empty_end; assumption.
Qed.
Lemma c_name_then n x : name_ok n -> (exists b r, x = b :: r /\ ~ tchar b) -> c_header_name (n ++ x) = (x, Ok n).
Proof. intros N X. apply (agree_ok _ _ _ _ (token_by_agree _ _ _ _)). apply name_then; assumption. Qed.
Lemma c_spaces_app i b r : b <> SP -> c_spaces (spaces i ++ b :: r) = (b :: r, Ok tt).
Proof. intros H. apply (agree_ok _ _ _ _ (spaces_agree _)). apply skip_spaces_app. exact H. Qed.
Lemma c_line_colon n i j v : name_ok n -> hd_error v <> Some SP -> v <> [] -> c_header_line (n ++ spaces i ++ COLON :: spaces j ++ v) =
  c_bind (c_header_value v) (fun value r5 => c_bind (c_new_line r5) (fun _ r6 => (r6, Ok (n, value)))).
Proof.
  intros N V V0. unfold c_header_line. rewrite c_name_then; [|exact N|apply spaces_then, colon_tchar]. cbn [c_bind].
  rewrite c_spaces_app by discriminate. cbn [c_bind]. unfold c_expect. cbn [c_next c_bind]. change (COLON =? 58) with true. cbv iota. cbn [c_bind].
  destruct v as [|b v]; [contradiction|]. rewrite c_spaces_app by (cbn in V; congruence). reflexivity.
Qed.
Lemma field_left_run l e r : bytes_ok l -> field_left l e r -> c_header_line l = (r, Err e).
Proof.
  intros Hl H. destruct H as [n N|b r B|n i N|n i b r N B1 B2 B3|n i j v N V1 V2|n i j v x e y N V V0 X|n i j x e y N X].
  - unfold c_header_line. apply name_token in N as [_ N]. apply scan_none in N. unfold c_header_name, c_token_by. rewrite N. reflexivity.
  - unfold c_header_line, c_header_name, c_token_by. cbn [scan]. rewrite name_tok by exact B. reflexivity.
  - unfold c_header_line. rewrite c_name_then; [|exact N|exists SP, (spaces i); split; [reflexivity|apply sp_tchar]]. cbn [c_bind]. rewrite spaces_all. reflexivity.
  - unfold c_header_line. rewrite c_name_then; [|exact N|].
    + cbn [c_bind]. rewrite c_spaces_app by exact B1. cbn [c_bind]. unfold c_expect. cbn [c_next c_bind].
      destruct (b =? 58) eqn:E; [apply N.eqb_eq in E; contradiction|]. reflexivity.
    + destruct i as [|i]; [cbn; eauto|]. exists SP, (spaces i ++ b :: r). split; [reflexivity|apply sp_tchar].
  - destruct v as [|b v].
    + rewrite app_nil_r. unfold c_header_line. rewrite c_name_then; [|exact N|apply spaces_then, colon_tchar]. cbn [c_bind].
      rewrite c_spaces_app by discriminate. cbn [c_bind]. unfold c_expect. cbn [c_next c_bind]. change (COLON =? 58) with true. cbv iota. cbn [c_bind]. rewrite spaces_all. reflexivity.
    + rewrite c_line_colon by (assumption || discriminate). unfold c_header_value, c_token_by.
      apply bytes_ok_app in Hl as [_ Hl]. apply bytes_ok_app in Hl as [_ Hl]. apply bytes_ok_cons in Hl as [_ Hl]. apply bytes_ok_app in Hl as [_ Hl].
      pose proof (no_cr_token _ Hl V1) as T. apply scan_none in T. rewrite T. reflexivity.
  - destruct v as [|b v]; [contradiction|]. rewrite c_line_colon; [|exact N| |discriminate].
    + unfold c_header_value, c_token_by. rewrite scan_app; [|apply value_token; exact V|reflexivity]. cbn [c_bind].
      change (c_new_line (CR :: x)) with (c_expect 10 (EHttp NewLine) x). rewrite (line_left_run _ _ _ X). reflexivity.
    + destruct V as (_ & _ & V). exact V.
  - rewrite c_line_colon by (assumption || discriminate). change (c_header_value (CR :: x)) with (x, @Ok bytes []). cbn [c_bind].
    rewrite (eol_left_run _ _ _ X). reflexivity.
Qed.
Lemma fields_bad_left l hs e : fields_bad l hs e -> exists r, fields_left l hs e r.
Proof.
  induction 1 as [x e X|b r e B1 B2 X|w n v l hs e F _ [y IH]].
  - apply line_bad_left in X as [y Y]. exists y. constructor. exact Y.
  - apply field_bad_left in X as [y Y]. exists y. constructor; assumption.
  - exists y. econstructor; eassumption.
Qed.
Lemma fields_left_loop l hs e z : fields_left l hs e z -> forall f h, bytes_ok l -> (length l < f)%nat ->
  c_header_loop f h l = (z, (add_fields h hs, Err e)).
Proof.
  intros H. induction H as [x e y X|b r e y B1 B2 X|w n v l hs e y F _ IH]; intros f h Hl Hf; (destruct f as [|f]; [lia|]).
  - destruct x as [|b x]; [inversion X; reflexivity|].
    assert (b = CR) by (inversion X; reflexivity). subst b.
    cbn [c_header_loop]. change (CR =? 13) with true. cbv iota. rewrite (line_left_run _ _ _ X). reflexivity.
  - cbn [c_header_loop]. apply N.eqb_neq in B1, B2. unfold CR, LF in B1, B2. rewrite B1, B2.
    rewrite (field_left_run _ _ _ Hl X). reflexivity.
  - pose proof (agree_ok _ _ _ _ (header_line_agree _) (field_parses w n v l F)) as P. destruct (P_Header.field_first _ _ _ F) as (b & w' & -> & C1 & C2).
    cbn [app c_header_loop] in *. apply N.eqb_neq in C1, C2. unfold CR, LF in C1, C2. rewrite C1, C2, P. cbn [c_try].
    rewrite IH; [reflexivity| |cbn [length] in Hf; rewrite app_length in Hf; lia].
    apply bytes_ok_cons in Hl as [_ Hl]. apply bytes_ok_app in Hl as [_ Hl]. exact Hl.
Qed.
Lemma fields_left_run l hs e z : bytes_ok l -> fields_left l hs e z -> c_header l = (z, (add_fields [] hs, Err e)).
Proof. intros Hl H. apply fields_left_loop; [exact H|exact Hl|lia]. Qed.

Lemma request_bad_left q l q' e : request_bad q l q' e -> exists r, request_left q l q' e r.
Proof.
  intros [bl x e' Hb L|bl b r e' Hb N1 N2 L|bl m x y e' Hb Hm X Y L|bl m i t x y e' Hb Hm Ht X Y L|bl m i t j v x e' Hb Hm Ht Hv X L|bl m i t j v eo x hs e' Hb Hm Ht Hv He L|wire m t v hs r e' Hh Hm Hv L].
  - apply line_bad_left in L as [z L]. exists z. apply rl_blank; assumption.
  - apply named_bad_left in L as [z L]. exists z. apply rl_method; assumption.
  - exists y. apply (rl_target q bl m x y); assumption.
  - apply named_bad_left in L as [z L]. exists z. apply (rl_version q bl m i t x y); assumption.
  - apply eol_bad_left in L as [z L]. exists z. apply rl_line; assumption.
  - apply fields_bad_left in L as [z L]. exists z. apply rl_fields; assumption.
  - exists r. apply (rl_url q wire m t v hs); assumption.
Qed.
Ltac over A := rewrite (agree_ok _ _ _ _ (A _)).
Lemma c_start bl w x : blanks bl -> word w -> c_empty_lines (bl ++ w ++ x) = (w ++ x, Ok tt).
Proof. intros Hb Hw. apply (agree_ok _ _ _ _ (empty_lines_agree _)). apply start_word; assumption. Qed.
Lemma c_over i w x : word w -> c_spaces (spaces i ++ w ++ x) = (w ++ x, Ok tt).
Proof. intros Hw. apply (agree_ok _ _ _ _ (spaces_agree _)). apply over_spaces; assumption. Qed.
Lemma c_method_then m x : In m known_methods -> ended x -> c_method (method_str m ++ x) = (x, Ok m).
Proof. intros Hm X. apply ended_tok in X as (b & r & -> & T). apply (agree_ok _ _ _ _ (method_agree _)). apply parse_method_app; assumption. Qed.
Lemma c_version_then v x : In v known_versions -> ended x -> c_version (version_str v ++ x) = (x, Ok v).
Proof. intros Hm X. apply ended_tok in X as (b & r & -> & T). apply (agree_ok _ _ _ _ (version_agree _)). apply parse_version_app; assumption. Qed.
Lemma c_status_then c x : 100 <= c <= 999 -> ended x -> c_status (three_digits c ++ x) = (x, Ok c).
Proof. intros Hc X. apply ended_tok in X as (b & r & -> & T). apply (agree_ok _ _ _ _ (status_agree _)). rewrite <- status_str_three by exact Hc. apply parse_status_app; assumption. Qed.
Lemma c_word_then w x : word w -> ended x -> c_token (w ++ x) = (x, Ok w).
Proof. intros Hw (b & r & -> & T). apply word_token; assumption. Qed.
Lemma eol_ended eo x : eol eo -> ended (eo ++ x).
Proof. intros He. destruct (eol_first _ He) as (b & r & -> & T). exists b, (r ++ x). split; [reflexivity|apply not_tok; exact T]. Qed.
Lemma c_eol eo x : eol eo -> c_new_line (eo ++ x) = (x, Ok tt).
Proof. intros He. apply (agree_ok _ _ _ _ (new_line_agree _)). apply skip_new_line_eol. exact He. Qed.
Ltac tailok Hl := repeat (apply bytes_ok_app in Hl as [_ Hl]); exact Hl.
Lemma request_left_run q l q' e z : bytes_ok l -> request_left q l q' e z -> c_request q l = (z, (q', Err e)).
Proof.
  intros Hl H. unfold c_request. cbv zeta.
  destruct H as [bl x e z Hb L|bl b r e z Hb N1 N2 L|bl m x y e Hb Hm X Y L|bl m i t x y e z Hb Hm Ht X Y L|bl m i t j v x e z Hb Hm Ht Hv X L|bl m i t j v eo x hs e z Hb Hm Ht Hv He L|wire m t v hs r e Hh Hm Hv L].
  - rewrite (blank_left_run _ _ _ _ Hb L). reflexivity.
  - rewrite (agree_ok _ _ tt (b :: r) (empty_lines_agree _)) by (apply skip_empty_lines_app; assumption). cbn [c_try]. rewrite (method_left_run _ _ _ L). reflexivity.
  - rewrite c_start by (try apply method_word; assumption). cbn [c_try]. rewrite c_method_then by assumption. cbn [c_try].
    apply (gap_left _ c_token _ x y); [reflexivity|exact Y|apply token_left_run; exact L].
  - rewrite c_start by (try apply method_word; assumption). cbn [c_try]. rewrite c_method_then by (try apply ended_spaces; assumption). cbn [c_try].
    rewrite c_over by exact Ht. cbn [c_try]. rewrite c_word_then by assumption. cbn [c_try].
    apply (gap_left _ c_version _ x y); [reflexivity|exact Y|apply version_left_run; exact L].
  - rewrite c_start by (try apply method_word; assumption). cbn [c_try]. rewrite c_method_then by (try apply ended_spaces; assumption). cbn [c_try].
    rewrite c_over by exact Ht. cbn [c_try]. rewrite c_word_then by (try apply ended_spaces; assumption). cbn [c_try].
    rewrite c_over by (apply version_word; exact Hv). cbn [c_try]. rewrite c_version_then by assumption. cbn [c_try]. rewrite (eol_left_run _ _ _ L). reflexivity.
  - rewrite c_start by (try apply method_word; assumption). cbn [c_try]. rewrite c_method_then by (try apply ended_spaces; assumption). cbn [c_try].
    rewrite c_over by exact Ht. cbn [c_try]. rewrite c_word_then by (try apply ended_spaces; assumption). cbn [c_try].
    rewrite c_over by (apply version_word; exact Hv). cbn [c_try]. rewrite c_version_then by (try apply eol_ended; assumption). cbn [c_try]. rewrite c_eol by exact He. cbn [c_try].
    assert (Hx : bytes_ok x) by tailok Hl. rewrite (fields_left_run _ _ _ _ Hx L). reflexivity.
  - inversion Hh as [bl ms i t' j vs eo fs hs' Hbl Hms Ht Hvs He Hfs E1 E2 E3 E4]. subst. rewrite <- !app_assoc.
    rewrite c_start by assumption. cbn [c_try]. rewrite c_method_then by (try apply ended_spaces; assumption). cbn [c_try].
    rewrite c_over by exact Ht. cbn [c_try]. rewrite c_word_then by (try apply ended_spaces; assumption). cbn [c_try].
    rewrite c_over by exact Hvs. cbn [c_try]. rewrite c_version_then by (try apply eol_ended; assumption). cbn [c_try]. rewrite c_eol by exact He. cbn [c_try].
    pose proof (header_agree (fs ++ r)) as K. rewrite (parse_header_fields fs hs r Hfs) in K. cbn [agree_s] in K. rewrite K. cbn [c_try].
    apply target_bad_iff in L; [|apply word_bytes; exact Ht]. cbn [c_try]. rewrite L. reflexivity.
Qed.
Lemma request_left_iff q l q' e z : bytes_ok l -> (c_request q l = (z, (q', Err e)) <-> request_left q l q' e z).
Proof.
  intros Hl. split; [|apply request_left_run; exact Hl]. intros H.
  assert (B : req_parse_buffer q l = (q', Err e)) by (apply request_buffer; rewrite H; reflexivity).
  apply request_err in B; [|exact Hl]. apply request_bad_left in B as [r B]. pose proof (request_left_run _ _ _ _ _ Hl B) as K.
  rewrite H in K. injection K as ->. exact B.
Qed.
Lemma response_bad_left p l p' e : response_bad p l p' e -> exists r, response_left p l p' e r.
Proof.
  intros [bl x e' Hb L|bl b r e' Hb N1 N2 L|bl v x y e' Hb Hv X Y L|bl v i c x y e' Hb Hv Hc X Y L|bl v i c j rs b r e' Hb Hv Hc Hr N L|bl v i c j rs eo x hs e' Hb Hv Hc Hr He L].
  - apply line_bad_left in L as [z L]. exists z. apply pl_blank; assumption.
  - apply named_bad_left in L as [z L]. exists z. apply pl_version; assumption.
  - apply named_bad_left in L as [z L]. exists z. apply (pl_status p bl v x y); assumption.
  - exists y. apply (pl_reason p bl v i c x y); assumption.
  - apply eol_bad_left in L as [z L]. exists z. apply pl_line; assumption.
  - apply fields_bad_left in L as [z L]. exists z. apply pl_fields; assumption.
Qed.
Lemma c_reason_over i rs x : reason_ok rs -> c_spaces (spaces i ++ rs ++ x) = (rs ++ x, Ok tt).
Proof. intros H. apply (agree_ok _ _ _ _ (spaces_agree _)). apply over_reason. exact H. Qed.
Lemma c_reason rs b r : reason_ok rs -> ~ reason_char b -> c_status_token (rs ++ b :: r) = (b :: r, Ok rs).
Proof. intros H N. apply (agree_ok _ _ _ _ (token_by_agree _ _ _ _)). apply reason_tok; assumption. Qed.
Lemma response_left_run p l p' e z : bytes_ok l -> response_left p l p' e z -> c_response p l = (z, (p', Err e)).
Proof.
  intros Hl H. unfold c_response. cbv zeta.
  destruct H as [bl x e z Hb L|bl b r e z Hb N1 N2 L|bl v x y e z Hb Hv X Y L|bl v i c x y e Hb Hv Hc X Y L|bl v i c j rs b r e z Hb Hv Hc Hr N L|bl v i c j rs eo x hs e z Hb Hv Hc Hr He L].
  - rewrite (blank_left_run _ _ _ _ Hb L). reflexivity.
  - rewrite (agree_ok _ _ tt (b :: r) (empty_lines_agree _)) by (apply skip_empty_lines_app; assumption). cbn [c_try]. rewrite (version_left_run _ _ _ L). reflexivity.
  - rewrite c_start by (try apply version_word; assumption). cbn [c_try]. rewrite c_version_then by assumption. cbn [c_try].
    apply (gap_left _ c_status _ x y); [reflexivity|exact Y|apply status_left_run; exact L].
  - rewrite c_start by (try apply version_word; assumption). cbn [c_try]. rewrite c_version_then by (try apply ended_spaces; assumption). cbn [c_try].
    rewrite c_over by (apply three_word; exact Hc). cbn [c_try]. rewrite c_status_then by assumption. cbn [c_try].
    apply (gap_left _ c_status_token _ x y); [reflexivity|exact Y|apply reason_left_run; exact L].
  - rewrite c_start by (try apply version_word; assumption). cbn [c_try]. rewrite c_version_then by (try apply ended_spaces; assumption). cbn [c_try].
    rewrite c_over by (apply three_word; exact Hc). cbn [c_try]. rewrite c_status_then by (try apply ended_spaces; assumption). cbn [c_try].
    rewrite c_reason_over by exact Hr. cbn [c_try]. rewrite c_reason by assumption. cbn [c_try]. rewrite (eol_left_run _ _ _ L). reflexivity.
  - assert (T : exists b r, eo ++ x = b :: r /\ ~ reason_char b).
    { destruct He as [->| ->]; eexists _, _; (split; [reflexivity|]); unfold reason_char, CR, LF; lia. }
    destruct T as (b & r & Ee & T).
    rewrite c_start by (try apply version_word; assumption). cbn [c_try]. rewrite c_version_then by (try apply ended_spaces; assumption). cbn [c_try].
    rewrite c_over by (apply three_word; exact Hc). cbn [c_try]. rewrite c_status_then by (try apply ended_spaces; assumption). cbn [c_try].
    rewrite c_reason_over by exact Hr. cbn [c_try].
    assert (E4 : c_status_token (rs ++ eo ++ x) = (eo ++ x, Ok rs)) by (rewrite Ee; apply c_reason; assumption).
    rewrite E4. cbn [c_try]. rewrite c_eol by (destruct He as [->| ->]; constructor). cbn [c_try].
    assert (Hx : bytes_ok x) by tailok Hl. rewrite (fields_left_run _ _ _ _ Hx L). reflexivity.
Qed.
Lemma response_left_iff p l p' e z : bytes_ok l -> (c_response p l = (z, (p', Err e)) <-> response_left p l p' e z).
Proof.
  intros Hl. split; [|apply response_left_run; exact Hl]. intros H.
  assert (B : resp_parse_buffer p l = (p', Err e)) by (apply response_buffer; rewrite H; reflexivity).
  apply response_err in B; [|exact Hl]. apply response_bad_left in B as [r B]. pose proof (response_left_run _ _ _ _ _ Hl B) as K.
  rewrite H in K. injection K as ->. exact B.
Qed.

(** ** When the call can be repeated *)
(** A head of which only blank lines and a part of the first word are there: nothing that matters is lost. *)
Lemma empty_lines_more bl l : blanks bl -> c_empty_lines (bl ++ l) = c_empty_lines l.
Proof. induction 1 as [|x _ IH|x _ IH]; [reflexivity|exact IH|exact IH]. Qed.
Lemma blanks_snoc bl : blanks bl -> blanks (bl ++ [LF]) /\ blanks (bl ++ [CR; LF]).
Proof. induction 1 as [|x _ [IH1 IH2]|x _ [IH1 IH2]]; cbn [app]; split; repeat constructor; assumption. Qed.
Definition request_of (q : request) (l : bytes) := outcome (c_request q l).
Lemma request_skip q l l' : c_empty_lines l = c_empty_lines l' -> request_of q l = request_of q l'.
Proof.
  intros H. unfold request_of, c_request. cbv zeta. rewrite H. destruct (c_empty_lines l') as [r0 [[]|e| |]]; cbn [c_try]; try reflexivity.
  destruct (c_method r0) as [r1 [m|e| |]]; cbn [c_try]; try reflexivity. destruct (c_spaces r1) as [r2 [[]|e| |]]; cbn [c_try]; try reflexivity.
  destruct (c_token r2) as [r3 [t|e| |]]; cbn [c_try]; try reflexivity. destruct (c_spaces r3) as [r4 [[]|e| |]]; cbn [c_try]; try reflexivity.
  destruct (c_version r4) as [r5 [v|e| |]]; cbn [c_try]; try reflexivity. destruct (c_new_line r5) as [r6 [[]|e| |]]; cbn [c_try]; try reflexivity.
  destruct (c_header r6) as [r7 [h [[]|e| |]]]; cbn [c_try]; try reflexivity. destruct (req_url_of m t h) as [u|e| |]; reflexivity.
Qed.
Definition response_of (p : response) (l : bytes) := outcome (c_response p l).
Lemma response_skip p l l' : c_empty_lines l = c_empty_lines l' -> response_of p l = response_of p l'.
Proof.
  intros H. unfold response_of, c_response. cbv zeta. rewrite H. destruct (c_empty_lines l') as [r0 [[]|e| |]]; cbn [c_try]; try reflexivity.
  destruct (c_version r0) as [r1 [m|e| |]]; cbn [c_try]; try reflexivity. destruct (c_spaces r1) as [r2 [[]|e| |]]; cbn [c_try]; try reflexivity.
  destruct (c_status r2) as [r3 [t|e| |]]; cbn [c_try]; try reflexivity. destruct (c_spaces r3) as [r4 [[]|e| |]]; cbn [c_try]; try reflexivity.
  destruct (c_status_token r4) as [r5 [v|e| |]]; cbn [c_try]; try reflexivity. destruct (c_new_line r5) as [r6 [[]|e| |]]; cbn [c_try]; try reflexivity.
  destruct (c_header r6) as [r7 [h [[]|e| |]]]; cbn [c_try]; reflexivity.
Qed.

(** ** When nothing is taken *)
Lemma line_left_len x e z : line_left x e z -> (length z <= length x)%nat.
Proof. intros [| |b r _]; cbn [length]; lia. Qed.
Lemma line_left_same x e : line_left x e x -> x = [] /\ e = unfinished.
Proof.
  intros H. remember x as z eqn:Ez in H at 2. destruct H as [| |b r _]; [split; reflexivity|discriminate|]. exfalso. apply (f_equal (@length _)) in Ez. cbn [length] in Ez. lia.
Qed.
Lemma eol_left_len x e z : eol_left x e z -> (length z <= length x)%nat.
Proof. intros [| |b r _|b r _]; cbn [length]; lia. Qed.
Lemma named_left_len K e0 x e z : named_left K e0 x e z -> (length z <= length x)%nat.
Proof. intros [l e' _|w b r _ _ _]; rewrite ?app_length; lia. Qed.
Lemma named_left_same K e0 x e : named_left K e0 x e x -> word_bad vchar (EHttp Token) x e.
Proof.
  intros H. remember x as z eqn:Ez in H at 2. destruct H as [l e' W|w b r [W _] _ _]; [subst; exact W|]. exfalso. destruct w as [|a w]; [contradiction|].
  apply (f_equal (@length _)) in Ez. rewrite app_length in Ez. cbn [length] in Ez. lia.
Qed.
Lemma spaced_len x y : spaced x y -> (length y <= length x)%nat.
Proof. intros (i & -> & _). rewrite app_length. lia. Qed.
Lemma field_left_len x e z : field_left x e z -> (length z <= length x)%nat.
Proof.
  intros [n _|b r _|n i _|n i b r _ _ _ _|n i j v _ _ _|n i j v x' e' y _ _ _ L|n i j x' e' y _ L]; rewrite ?app_length; cbn [length]; rewrite ?app_length; cbn [length]; rewrite ?app_length; cbn [length]; try lia.
  - apply line_left_len in L. cbn [length] in L. lia.
  - apply eol_left_len in L. lia.
Qed.
Lemma fields_left_len x hs e z : fields_left x hs e z -> (length z <= length x)%nat.
Proof.
  induction 1 as [x e y L|b r e y _ _ L|w n v l hs e y _ _ IH]; [exact (line_left_len _ _ _ L)|exact (field_left_len _ _ _ L)|]. rewrite app_length. lia.
Qed.
Lemma method_len m : In m known_methods -> (0 < length (method_str m))%nat.
Proof. intros H. destruct (method_word m H) as [W _]. destruct (method_str m); [contradiction|cbn [length]; lia]. Qed.
Lemma version_len v : In v known_versions -> (0 < length (version_str v))%nat.
Proof. intros H. destruct (version_word v H) as [W _]. destruct (version_str v); [contradiction|cbn [length]; lia]. Qed.
Lemma blanks_first bl w : blanks bl -> Forall vchar (bl ++ w) -> bl = [].
Proof. intros [|x _|x _] H; [reflexivity| |]; exfalso; cbn [app] in H; apply Forall_inv in H; unfold vchar, CR, LF in H; lia. Qed.
Lemma vchar_line b : vchar b -> b <> CR /\ b <> LF.
Proof. unfold vchar, CR, LF. lia. Qed.
Lemma request_unmoved_iff q l e : bytes_ok l ->
  ((exists q', c_request q l = (l, (q', Err e))) <->
   (e = unfinished /\ Forall vchar l) \/ (e = EHttp Token /\ exists b r, l = b :: r /\ ~ vchar b /\ b <> CR /\ b <> LF)).
Proof.
  intros Hl. split.
  - intros [q' H]. apply request_left_iff in H; [|exact Hl]. remember l as z eqn:Ez in H at 2.
    destruct H as [bl x e z Hb L|bl b r e z Hb N1 N2 L|bl m x y e Hb Hm X Y L|bl m i t x y e z Hb Hm Ht X Y L|bl m i t j v x e z Hb Hm Ht Hv X L|bl m i t j v eo x hs e z Hb Hm Ht Hv He L|wire m t v hs r e Hh Hm Hv L]; subst.
    + left. pose proof (line_left_len _ _ _ L) as G. rewrite app_length in G. destruct bl as [|c bl]; [|cbn [length] in G; lia]. cbn [app] in *.
      apply line_left_same in L as [-> ->]. split; [reflexivity|apply Forall_nil].
    + pose proof (named_left_len _ _ _ _ _ L) as G. rewrite app_length in G. destruct bl as [|c bl]; [|cbn [length] in G; lia]. cbn [app] in *.
      apply named_left_same in L.
      inversion L as [w V E1 E2|c r' V E1 E2]; subst; [left; split; [reflexivity|exact V]|right]. split; [reflexivity|]. eexists _, _. repeat split; try reflexivity; assumption.
    + exfalso. pose proof (spaced_len _ _ Y) as G. pose proof (method_len _ Hm). rewrite !app_length in G. lia.
    + exfalso. pose proof (spaced_len _ _ Y) as G. pose proof (method_len _ Hm). pose proof (named_left_len _ _ _ _ _ L) as G'. rewrite !app_length in G'. lia.
    + exfalso. pose proof (eol_left_len _ _ _ L) as G. pose proof (method_len _ Hm). rewrite !app_length in G. lia.
    + exfalso. pose proof (fields_left_len _ _ _ _ L) as G. pose proof (method_len _ Hm). rewrite !app_length in G. lia.
    + exfalso. assert (wire = []) as -> by (apply (f_equal (@length _)) in Ez; rewrite app_length in Ez; destruct wire; [reflexivity|cbn [length] in Ez; lia]).
      inversion Hh as [bl m' t' v' i j eo hw hs' Hb Hm' Ht' Hv' He Hf E]. apply (f_equal (@length _)) in E. rewrite !app_length in E. pose proof (method_len _ Hm). cbn [length] in E. lia.
  - intros [[-> V]|(-> & b & r & -> & V & N1 & N2)].
    + eexists. apply request_left_run; [exact Hl|]. destruct l as [|b r].
      * apply (rl_blank q [] []); constructor.
      * apply Forall_inv in V as Vb. apply vchar_line in Vb as [N1 N2]. apply (rl_method q [] b r); try assumption; [constructor|]. apply nl_word, wb_open. exact V.
    + eexists. apply request_left_run; [exact Hl|]. apply (rl_method q [] b r); try assumption; [constructor|]. apply nl_word, wb_none. exact V.
Qed.
Lemma response_unmoved_iff p l e : bytes_ok l ->
  ((exists p', c_response p l = (l, (p', Err e))) <->
   (e = unfinished /\ Forall vchar l) \/ (e = EHttp Token /\ exists b r, l = b :: r /\ ~ vchar b /\ b <> CR /\ b <> LF)).
Proof.
  intros Hl. split.
  - intros [p' H]. apply response_left_iff in H; [|exact Hl]. remember l as z eqn:Ez in H at 2.
    destruct H as [bl x e z Hb L|bl b r e z Hb N1 N2 L|bl v x y e z Hb Hv X Y L|bl v i c x y e Hb Hv Hc X Y L|bl v i c j rs b r e z Hb Hv Hc Hr N L|bl v i c j rs eo x hs e z Hb Hv Hc Hr He L]; subst.
    + left. pose proof (line_left_len _ _ _ L) as G. rewrite app_length in G. destruct bl as [|c bl]; [|cbn [length] in G; lia]. cbn [app] in *.
      apply line_left_same in L as [-> ->]. split; [reflexivity|apply Forall_nil].
    + pose proof (named_left_len _ _ _ _ _ L) as G. rewrite app_length in G. destruct bl as [|c bl]; [|cbn [length] in G; lia]. cbn [app] in *.
      apply named_left_same in L.
      inversion L as [w V E1 E2|c r' V E1 E2]; subst; [left; split; [reflexivity|exact V]|right]. split; [reflexivity|]. eexists _, _. repeat split; try reflexivity; assumption.
    + exfalso. pose proof (spaced_len _ _ Y) as G. pose proof (version_len _ Hv). pose proof (named_left_len _ _ _ _ _ L) as G'. rewrite !app_length in G'. lia.
    + exfalso. pose proof (spaced_len _ _ Y) as G. pose proof (version_len _ Hv). rewrite !app_length in G. lia.
    + exfalso. pose proof (eol_left_len _ _ _ L) as G. pose proof (version_len _ Hv). rewrite !app_length in G. lia.
    + exfalso. pose proof (fields_left_len _ _ _ _ L) as G. pose proof (version_len _ Hv). rewrite !app_length in G. lia.
  - intros [[-> V]|(-> & b & r & -> & V & N1 & N2)].
    + eexists. apply response_left_run; [exact Hl|]. destruct l as [|b r].
      * apply (pl_blank p [] []); constructor.
      * apply Forall_inv in V as Vb. apply vchar_line in Vb as [N1 N2]. apply (pl_version p [] b r); try assumption; [constructor|]. apply nl_word, wb_open. exact V.
    + eexists. apply response_left_run; [exact Hl|]. apply (pl_version p [] b r); try assumption; [constructor|]. apply nl_word, wb_none. exact V.
Qed.

(** ** When a call can be repeated with what is left *)
Lemma vchars_bytes w : Forall vchar w -> bytes_ok w.
Proof. apply Forall_impl. unfold vchar, byte_ok. lia. Qed.
Lemma blanks_bytes bl : blanks bl -> bytes_ok bl.
Proof. induction 1 as [|x _ IH|x _ IH]; repeat constructor; assumption || (unfold byte_ok, CR, LF; lia). Qed.
Lemma request_of_partial q l : request_of (req_set_partial q true) l = request_of q l.
Proof. reflexivity. Qed.
Lemma response_of_partial p l : response_of (resp_set_partial p true) l = response_of p l.
Proof. reflexivity. Qed.
Lemma request_repeat q bl w s : blanks bl -> Forall vchar w ->
  exists q', c_request q (bl ++ w) = (w, (q', Err unfinished)) /\ request_of q' (w ++ s) = request_of q (bl ++ w ++ s).
Proof.
  intros Hb V. exists (req_set_partial q true). split.
  - apply request_left_run; [apply bytes_ok_app; split; [exact (blanks_bytes _ Hb)|exact (vchars_bytes _ V)]|]. destruct w as [|b r].
    + apply (rl_blank q bl []); [exact Hb|constructor].
    + apply Forall_inv in V as Vb. apply vchar_line in Vb as [N1 N2]. apply (rl_method q bl b r); try assumption. apply nl_word, wb_open. exact V.
  - rewrite request_of_partial. symmetry. apply request_skip. apply empty_lines_more. exact Hb.
Qed.
Lemma request_repeat_cr q bl s : blanks bl ->
  exists q', c_request q (bl ++ [CR]) = ([], (q', Err unfinished)) /\ request_of q' (LF :: s) = request_of q (bl ++ CR :: LF :: s).
Proof.
  intros Hb. exists (req_set_partial q true). split.
  - apply request_left_run; [apply bytes_ok_app; split; [exact (blanks_bytes _ Hb)|repeat constructor]|]. apply (rl_blank q bl [CR]); [exact Hb|constructor].
  - rewrite request_of_partial. symmetry. apply request_skip. rewrite empty_lines_more by exact Hb. reflexivity.
Qed.
Lemma response_repeat p bl w s : blanks bl -> Forall vchar w ->
  exists p', c_response p (bl ++ w) = (w, (p', Err unfinished)) /\ response_of p' (w ++ s) = response_of p (bl ++ w ++ s).
Proof.
  intros Hb V. exists (resp_set_partial p true). split.
  - apply response_left_run; [apply bytes_ok_app; split; [exact (blanks_bytes _ Hb)|exact (vchars_bytes _ V)]|]. destruct w as [|b r].
    + apply (pl_blank p bl []); [exact Hb|constructor].
    + apply Forall_inv in V as Vb. apply vchar_line in Vb as [N1 N2]. apply (pl_version p bl b r); try assumption. apply nl_word, wb_open. exact V.
  - rewrite response_of_partial. symmetry. apply response_skip. apply empty_lines_more. exact Hb.
Qed.
Lemma response_repeat_cr p bl s : blanks bl ->
  exists p', c_response p (bl ++ [CR]) = ([], (p', Err unfinished)) /\ response_of p' (LF :: s) = response_of p (bl ++ CR :: LF :: s).
Proof.
  intros Hb. exists (resp_set_partial p true). split.
  - apply response_left_run; [apply bytes_ok_app; split; [exact (blanks_bytes _ Hb)|repeat constructor]|]. apply (pl_blank p bl [CR]); [exact Hb|constructor].
  - rewrite response_of_partial. symmetry. apply response_skip. rewrite empty_lines_more by exact Hb. reflexivity.
Qed.
Lemma lines_left hs : forall ws l hs' e y, header_lines ws hs -> fields_left l hs' e y -> fields_left (ws ++ l) (hs ++ hs') e y.
Proof.
  intros ws l hs' e y H L. induction H as [|w n v ws hs F _ IH]; [exact L|]. rewrite <- app_assoc. cbn [app]. apply fsl_later; assumption.
Qed.
Lemma request_forgets q bl m i t j v eo fs hs n a b :
  blanks bl -> In m known_methods -> word t -> In v known_versions -> eol eo -> header_lines fs hs -> name_ok n ->
  bytes_ok (bl ++ method_str m ++ spaces (S i) ++ t ++ spaces (S j) ++ version_str v ++ eo ++ fs ++ n ++ spaces a ++ COLON :: spaces b) ->
  c_request q (bl ++ method_str m ++ spaces (S i) ++ t ++ spaces (S j) ++ version_str v ++ eo ++ fs ++ n ++ spaces a ++ COLON :: spaces b) =
    ([], (mkReq m v (q_url q) (add_fields [] hs) true, Err unfinished)).
Proof.
  intros Hb Hm Ht Hv He Hf Hn B. apply request_left_run; [exact B|]. apply rl_fields; try assumption. rewrite <- (app_nil_r hs). apply lines_left; [exact Hf|].
  assert (F : field_left (n ++ spaces a ++ COLON :: spaces b) unfinished []).
  { rewrite <- (app_nil_r (spaces b)). apply fl_open_value; [exact Hn|intros []|discriminate]. }
  destruct Hn as [N0 Hn]. destruct n as [|c n]; [contradiction|]. apply Forall_inv in Hn as Hc. cbn [app] in *.
  apply fsl_line; [| |exact F]; intros ->; apply tchar_not in Hc as (_ & _ & K3 & K4 & _); unfold CR, LF in *; contradiction.
Qed.
Lemma request_taken q l : tail_of l (fst (c_request q l)) /\
  snd (c_request q l) = req_parse q l /\
  forall z q' n, c_request q l = (z, (q', Ok n)) -> exists a, l = a ++ z /\ blen a = n.
Proof.
  split; [apply request_tail|]. split; [apply request_same|]. intros z q' n H. pose proof (request_tail q l) as [a T]. rewrite H in T. cbn [fst] in T.
  exists a. split; [exact T|]. pose proof (request_agree q l) as G. destruct (req_parse_buffer q l) as [q1 [r|e| |]]; cbn [agree_s fst snd] in G; rewrite H in G; try discriminate.
  injection G as -> _ ->. rewrite T at 1. rewrite blen_app. lia.
Qed.
Lemma response_taken p l : tail_of l (fst (c_response p l)) /\
  snd (c_response p l) = resp_parse p l /\
  forall z p' n, c_response p l = (z, (p', Ok n)) -> exists a, l = a ++ z /\ blen a = n.
Proof.
  split; [apply response_tail|]. split; [apply response_same|]. intros z q' n H. pose proof (response_tail p l) as [a T]. rewrite H in T. cbn [fst] in T.
  exists a. split; [exact T|]. pose proof (response_agree p l) as G. destruct (resp_parse_buffer p l) as [q1 [r|e| |]]; cbn [agree_s fst snd] in G; rewrite H in G; try discriminate.
  injection G as -> _ ->. rewrite T at 1. rewrite blen_app. lia.
Qed.
