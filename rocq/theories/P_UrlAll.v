(** The exact language of Url::parse. *)
From Coq Require Import Ascii String NArith ZArith Lia Bool List ZifyBool ZifyNat ZifyN.
From Verif Require Import Base S_Utf8 P_Base M_Std P_Std M_Helper M_Header M_Url M_Http1 S_Http1 S_Http1Api S_Hex S_Map S_Url S_UrlAll P_Helper P_Header P_Http1 P_Msg P_Chunk P_Map P_Url P_UrlForm.
Import ListNotations.
Local Open Scope N_scope.
Ltac Zify.zify_post_hook ::= Z.div_mod_to_equations.

(** ** The loop without its end *)
Fixpoint url_run (hd : bool) (s : ust) (l : bytes) : res ust :=
  match l with [] => Ok s | b :: l' => s' <- url_step hd s b ;; url_run hd s' l' end.
Lemma loop_run hd l r : forall s, url_loop hd s (l ++ r) = (s' <- url_run hd s l ;; url_loop hd s' r).
Proof.
  induction l as [|b l IH]; intros s; [reflexivity|]. cbn [app url_loop url_run]. destruct (url_step hd s b) as [s'|e| |]; cbn [bind]; auto.
Qed.
Lemma loop_end hd l s : url_loop hd s l = (s' <- url_run hd s l ;; Ok (url_finish hd s')).
Proof. rewrite <- (app_nil_r l) at 1. rewrite loop_run. reflexivity. Qed.
(** User and password are not looked at. *)
Definition with_login (us pw : option bytes) (s : ust) : ust := let '(mkUst _ _ d p a q f v) := s in mkUst us pw d p a q f v.
Lemma step_login hd us pw s b : b <> 64 -> url_step hd (with_login us pw s) b = (s' <- url_step hd s b ;; Ok (with_login us pw s')).
Proof.
  intros N. destruct s as [u w d p a q f v]. unfold url_step, with_login. destruct (b =? 64) eqn:E; [lia|].
  repeat match goal with |- context [if ?c then _ else _] => destruct c; cbn [bind] end; reflexivity.
Qed.
Lemma loop_login hd us pw l : ~ In 64 l -> forall s, url_loop hd (with_login us pw s) l = (s' <- url_loop hd s l ;; Ok (with_login us pw s')).
Proof.
  induction l as [|b l IH]; intros N s; cbn [url_loop].
  - destruct s as [u w d p a q f v]. cbn [with_login url_finish bind]. repeat match goal with |- context [if ?c then _ else _] => destruct c end; reflexivity.
  - rewrite step_login by (intros ->; apply N; left; reflexivity). destruct (url_step hd s b) as [s'|e| |]; cbn [bind]; try reflexivity.
    apply IH. intros K. apply N. right. exact K.
Qed.
Definition fresh (us pw : option bytes) : ust := mkUst us pw None None None None false [].
Lemma abs_loop_login us pw l st : ~ In 64 l ->
  (url_loop true (fresh us pw) l = Ok st <->
   exists h pp po r pa q, l = h ++ pp ++ r /\ Forall part_char h /\ raw_port pp po /\ raw_path_query r pa q /\
     st = mkUst us pw (Some h) po pa q (is_some pa) []).
Proof.
  intros N. change (fresh us pw) with (with_login us pw (ust0 false)). rewrite loop_login by exact N. split.
  - intros H. apply bind_ok in H as (s & H & E). injection E as <-. apply abs_loop in H as (h & pp & po & r & pa & q & A & B & C & D & ->); [|exact N].
    exists h, pp, po, r, pa, q. auto.
  - intros (h & pp & po & r & pa & q & A & B & C & D & ->).
    rewrite (proj2 (abs_loop l (mkUst None None (Some h) po pa q (is_some pa) []) N)); [reflexivity|]. exists h, pp, po, r, pa, q. auto.
Qed.

(** ** Up to the next '@' *)
Definition seg_inv (s : ust) : Prop :=
  s_query s = None /\ (s_slash s = false -> s_port s = None /\ s_path s = None) /\ (s_slash s = true -> s_domain s <> None).
Lemma step_inv s b s' : b <> 64 -> seg_inv s -> url_step true s b = Ok s' -> seg_inv s'.
Proof.
  intros N I H. destruct s as [u w d p a q f v]. unfold seg_inv in *. cbn [s_query s_slash s_port s_path s_domain] in I. destruct I as (-> & I2 & I3).
  unfold url_step in H. destruct (b =? 64) eqn:E; [lia|]. rewrite !andb_true_r in H.
  destruct f; cbn [negb] in H; destruct d as [d|]; cbn [is_some negb] in H; destruct a as [a|]; cbn [is_some] in H;
  repeat match type of H with (if ?c then _ else _) = _ => destruct c end; try discriminate H; injection H as <-;
  cbn [s_query s_slash s_port s_path s_domain]; (split; [reflexivity|split]); intros K; try discriminate; auto.
Qed.
Lemma run_inv l : ~ In 64 l -> forall s s', seg_inv s -> url_run true s l = Ok s' -> seg_inv s'.
Proof.
  induction l as [|b l IH]; intros N s s' I H; cbn [url_run] in H; [injection H as <-; exact I|].
  apply bind_ok in H as (s1 & H1 & H). eapply IH; [intros K; apply N; right; exact K| |exact H].
  eapply step_inv; [|exact I|exact H1]. intros ->. apply N. left. reflexivity.
Qed.
(** What '@' makes of the parts read so far. *)
Inductive at_sign (h : bytes) (po : option bytes) : option bytes -> option bytes -> ust -> Prop :=
| at_login x : po = Some x -> at_sign h po None None (fresh (Some h) (Some x))
| at_path p : at_sign h po (Some p) None (mkUst (Some h) (Some p) None po None None true [])
| at_query p y : at_sign h po (Some p) (Some y) (mkUst (Some h) (Some y) None po (Some p) None true []).
Lemma at_step us pw l s : ~ In 64 l ->
  ((exists s1, url_run true (fresh us pw) l = Ok s1 /\ url_step true s1 64 = Ok s) <->
   exists h pp po r pa q, l = h ++ pp ++ r /\ Forall part_char h /\ raw_port pp po /\ raw_path_query r pa q /\ at_sign h po pa q s).
Proof.
  intros N. assert (I0 : seg_inv (fresh us pw)) by (repeat split; discriminate).
  pose proof (abs_loop_login us pw l) as L. split.
  - intros (s1 & H1 & H2). pose proof (run_inv l N _ _ I0 H1) as I. rewrite loop_end, H1 in L. cbn [bind] in L.
    destruct (proj1 (L (url_finish true s1) N) eq_refl) as (h & pp & po & r & pa & q & E & A & B & C & D).
    exists h, pp, po, r, pa, q. do 4 (split; [assumption|]). clear L H1 E A.
    destruct s1 as [u w d p a y f v]. unfold seg_inv in I. cbn [s_query s_slash s_port s_path s_domain] in I. destruct I as (-> & I2 & I3).
    cbn [url_finish] in D. cbn in H2. destruct d as [d|]; cbn [is_some] in *; [|discriminate]. injection H2 as <-.
    destruct a as [a|]; cbn [is_some] in D.
    + injection D as -> -> -> -> <- <- D. destruct f; [constructor|]. destruct (I2 eq_refl) as [_ K]. discriminate K.
    + destruct f; cbn [negb] in D.
      * injection D as -> -> -> -> <- <-. constructor.
      * destruct (I2 eq_refl) as [-> _]. injection D as -> -> -> <- <- <-. constructor. reflexivity.
  - intros (h & pp & po & r & pa & q & E & A & B & C & D).
    assert (F : url_loop true (fresh us pw) l = Ok (mkUst us pw (Some h) po pa q (is_some pa) [])) by (apply L; [exact N|]; exists h, pp, po, r, pa, q; auto).
    rewrite loop_end in F. apply bind_ok in F as (s1 & H1 & F). injection F as F. exists s1. split; [exact H1|].
    pose proof (run_inv l N _ _ I0 H1) as I. clear L H1 E A. destruct s1 as [u w d p a y f v]. unfold seg_inv in I. cbn [s_query s_slash s_port s_path s_domain] in I.
    destruct I as (-> & I2 & I3). cbn [url_finish] in F. destruct a as [a|]; cbn [is_some] in F.
    + destruct f; [|destruct (I2 eq_refl) as [_ K]; discriminate K]. injection F as -> -> -> -> <- <-. inversion D; subst. reflexivity.
    + destruct d as [d|]; cbn [is_some] in F.
      * destruct f; cbn [negb] in F.
        -- injection F as -> -> -> -> <- <-. inversion D; subst. reflexivity.
        -- destruct (I2 eq_refl) as [-> _]. injection F as -> -> -> <- <- <-. inversion D as [x K| |]; subst. injection K as <-. reflexivity.
      * destruct f; [destruct (I3 eq_refl); reflexivity|]. destruct (I2 eq_refl) as [-> _]. injection F as -> -> <- <- <- <-. inversion D as [x K| |]. discriminate K.
Qed.

(** ** Behind an '@' in path or query *)
Lemma no_host_no_at l : forall us pw po pa q v st, url_loop true (mkUst us pw None po pa q true v) l = Ok st -> ~ In 64 l.
Proof.
  induction l as [|x l IH]; intros us pw po pa q v st H K; [destruct K|]. cbn [url_loop] in H. apply bind_ok in H as (s' & H1 & H2).
  assert (N : x <> 64) by (intros ->; discriminate). destruct K as [->|K]; [contradiction|].
  assert (S : exists pa' q' v', s' = mkUst us pw None po pa' q' true v').
  { unfold url_step in H1. destruct (x =? 64) eqn:E; [lia|]. cbn [negb is_some] in H1.
    repeat match type of H1 with (if ?c then _ else _) = _ => destruct c end; try discriminate H1; injection H1 as <-; eauto. }
  destruct S as (pa' & q' & v' & ->). exact (IH _ _ _ _ _ _ _ H2 K).
Qed.
Lemma at_path_loop us pw po l st :
  url_loop true (mkUst us pw None po None None true []) l = Ok st <->
  (Forall path_char l /\ st = mkUst us pw (Some l) po None None true []) \/
  (exists r y, l = r ++ 63 :: y /\ Forall path_char r /\ Forall query_char y /\ st = mkUst us pw None po (Some r) (Some y) true []).
Proof.
  destruct (span_pred pathb l) as (t & r & -> & Ht & Hr). apply (forallb_Forall_iff _ _ _ pathb_ok) in Ht. rewrite loop_path by exact Ht. cbn [app].
  assert (U : forall r' y, t ++ r = r' ++ 63 :: y -> Forall path_char r' -> t = r' /\ r = 63 :: y).
  { induction Ht as [|x t Hx Ht IH]; intros [|x' r'] y E F; cbn in E.
    - auto.
    - exfalso. destruct Hr as [->|(z & r1 & -> & Hz)]; [discriminate|]. injection E as -> _. apply Forall_inv, pathb_ok in F. congruence.
    - injection E as -> _. destruct Hx as (_ & Hx & _). congruence.
    - injection E as <- E. destruct (IH r' y E) as [-> ->]; [inversion F; assumption|auto]. }
  destruct Hr as [->|(x & r' & -> & Hx)].
  - rewrite app_nil_r in *. cbn [url_loop url_finish is_some negb]. split.
    + intros H. injection H as <-. left. auto.
    + intros [[_ ->]|(r & y & E & F & _)]; [reflexivity|]. destruct (U r y E F) as [_ K]. discriminate K.
  - destruct (N.eq_dec x 63) as [->|N63].
    + cbn [url_loop url_step negb is_some]. change (63 =? 58) with false. change (63 =? 64) with false. change (63 =? 47) with false.
      change (63 =? 63) with true. cbv iota. cbn [bind]. split.
      * intros H. pose proof (no_host_no_at _ _ _ _ _ _ _ _ H) as N. apply query_loop in H as [Q ->]; [|exact N]. right. exists t, r'. auto.
      * intros [[K _]|(r & y & E & F & Q & ->)].
        -- apply Forall_app in K as [_ K]. apply Forall_inv in K. destruct K as (_ & K & _). congruence.
        -- destruct (U r y E F) as [-> E2]. injection E2 as ->. apply query_loop; [|auto]. intros K. rewrite Forall_forall in Q. apply Q in K. destruct K as [_ K]. congruence.
    + assert (G : url_loop true (mkUst us pw None po None None true t) (x :: r') = Err (EUrl UrlInvalid)).
      { cbn [url_loop]. destruct (N.eq_dec x 64) as [->|N64]; [reflexivity|]. rewrite path_bad by assumption. reflexivity. }
      rewrite G. split; [discriminate|]. intros [[K _]|(r & y & E & F & Q & ->)].
      * apply Forall_app in K as [_ K]. apply Forall_inv, pathb_ok in K. congruence.
      * destruct (U r y E F) as [_ E2]. injection E2 as -> _. contradiction.
Qed.
Lemma at_query_loop us pw po p l st :
  url_loop true (mkUst us pw None po (Some p) None true []) l = Ok st <-> Forall query_char l /\ st = mkUst us pw None po (Some p) (Some l) true [].
Proof.
  split.
  - intros H. pose proof (no_host_no_at _ _ _ _ _ _ _ _ H) as N. apply query_loop in H; assumption.
  - intros [Q ->]. apply query_loop; [|auto]. intros K. rewrite Forall_forall in Q. apply Q in K. destruct K as [_ K]. congruence.
Qed.

(** ** All texts behind the scheme *)
Inductive raw_abs : option bytes -> option bytes -> bytes -> ust -> Prop :=
| ra_plain us pw h pp po r pa q : Forall part_char h -> raw_port pp po -> raw_path_query r pa q ->
    raw_abs us pw (h ++ pp ++ r) (mkUst us pw (Some h) po pa q (is_some pa) [])
| ra_login us pw h c t l st : Forall part_char h -> c = 58 \/ c = 63 -> Forall portc t -> raw_abs (Some h) (Some (no_q t)) l st ->
    raw_abs us pw (h ++ c :: t ++ 64 :: l) st
| ra_path us pw h pp po t r : Forall part_char h -> raw_port pp po -> Forall path_char t -> Forall path_char r ->
    raw_abs us pw (h ++ pp ++ 47 :: t ++ 64 :: r) (mkUst (Some h) (Some (47 :: t)) (Some r) po None None true [])
| ra_path_query us pw h pp po t r y : Forall part_char h -> raw_port pp po -> Forall path_char t -> Forall path_char r -> Forall query_char y ->
    raw_abs us pw (h ++ pp ++ 47 :: t ++ 64 :: r ++ 63 :: y) (mkUst (Some h) (Some (47 :: t)) None po (Some r) (Some y) true [])
| ra_query us pw h pp po t y z : Forall part_char h -> raw_port pp po -> Forall path_char t -> Forall query_char y -> Forall query_char z ->
    raw_abs us pw (h ++ pp ++ 47 :: t ++ 63 :: y ++ 64 :: z) (mkUst (Some h) (Some y) None po (Some (47 :: t)) (Some z) true []).
Lemma first_at l : ~ In 64 l \/ exists a b, l = a ++ 64 :: b /\ ~ In 64 a.
Proof.
  induction l as [|x l IH]; [left; intros []|]. destruct (N.eq_dec x 64) as [->|N]; [right; exists [], l; auto|].
  destruct IH as [H|(a & b & -> & H)]; [left; intros [K|K]; [congruence|exact (H K)]|]. right. exists (x :: a), b. split; [reflexivity|]. intros [K|K]; [congruence|exact (H K)].
Qed.
Lemma parts_no_at h pp po r pa q : Forall part_char h -> raw_port pp po -> raw_path_query r pa q -> ~ In 64 (h ++ pp ++ r).
Proof.
  intros H P Q K. rewrite !in_app_iff in K. destruct K as [K|[K|K]].
  - rewrite Forall_forall in H. apply H in K. destruct K as [_ K]. apply K. cbn. tauto.
  - destruct P as [|c t C T]; [destruct K|]. destruct K as [K|K]; [lia|]. rewrite Forall_forall in T. apply T in K. destruct K as [[_ K]|K]; [apply K; cbn; tauto|discriminate].
  - destruct Q as [|t qq y T Y]; [destruct K|]. destruct K as [K|K]; [discriminate|]. apply in_app_or in K as [K|K].
    + rewrite Forall_forall in T. apply T in K. destruct K as (_ & _ & K). congruence.
    + destruct Y as [|z Z]; [destruct K|]. destruct K as [K|K]; [discriminate|]. rewrite Forall_forall in Z. apply Z in K. destruct K as [_ K]. congruence.
Qed.
Lemma abs_sound n : forall l us pw st, (length l < n)%nat -> url_loop true (fresh us pw) l = Ok st -> raw_abs us pw l st.
Proof.
  induction n as [|n IH]; intros l us pw st L H; [lia|]. destruct (first_at l) as [N|(a & b & -> & N)].
  - apply abs_loop_login in H as (h & pp & po & r & pa & q & -> & A & B & C & ->); [|exact N]. constructor; assumption.
  - rewrite loop_run in H. apply bind_ok in H as (s1 & H1 & H). cbn [url_loop] in H. apply bind_ok in H as (s2 & H2 & H).
    destruct (proj1 (at_step us pw a s2 N)) as (h & pp & po & r & pa & q & -> & A & B & C & D); [eauto|].
    rewrite <- !app_assoc. destruct D as [x Ex|p|p y].
    + subst po. inversion C; subst. inversion B as [|c t C1 T]; subst. cbn [app]. apply ra_login; try assumption. apply IH; [|exact H].
      rewrite !app_length in L. cbn [length] in L. lia.
    + inversion C as [|t qq q' T Q]; subst. inversion Q; subst. rewrite app_nil_r. cbn [app].
      apply at_path_loop in H as [[R ->]|(r & y & -> & R & Y & ->)]; [apply ra_path|apply ra_path_query]; assumption.
    + inversion C as [|t qq q' T Q]; subst. inversion Q; subst. cbn [app]. rewrite <- app_assoc. cbn [app].
      apply at_query_loop in H as [Z ->]. apply ra_query; assumption.
Qed.
Lemma abs_continue us pw a b s st h pp po r pa q : a = h ++ pp ++ r -> Forall part_char h -> raw_port pp po -> raw_path_query r pa q -> at_sign h po pa q s ->
  url_loop true s b = Ok st -> url_loop true (fresh us pw) (a ++ 64 :: b) = Ok st.
Proof.
  intros E A B C D H. destruct (proj2 (at_step us pw a s ltac:(subst a; eapply parts_no_at; eassumption))) as (s1 & H1 & H2); [exists h, pp, po, r, pa, q; auto|].
  rewrite loop_run, H1. cbn [bind url_loop]. rewrite H2. exact H.
Qed.
Lemma abs_complete us pw l st : raw_abs us pw l st -> url_loop true (fresh us pw) l = Ok st.
Proof.
  induction 1 as [us pw h pp po r pa q A B C|us pw h c t l st A B C _ IH|us pw h pp po t r A B T R|us pw h pp po t r y A B T R Y|us pw h pp po t y z A B T Y Z].
  - apply abs_loop_login; [eapply parts_no_at; eassumption|]. exists h, pp, po, r, pa, q. auto.
  - replace (h ++ c :: t ++ 64 :: l) with ((h ++ (c :: t) ++ []) ++ 64 :: l) by (rewrite app_nil_r, <- !app_assoc; reflexivity).
    eapply abs_continue; [reflexivity|exact A|constructor; eassumption|constructor|constructor; reflexivity|exact IH].
  - replace (h ++ pp ++ 47 :: t ++ 64 :: r) with ((h ++ pp ++ 47 :: t ++ []) ++ 64 :: r) by (rewrite app_nil_r, <- !app_assoc; reflexivity).
    eapply abs_continue; [reflexivity|exact A|exact B|constructor; [exact T|constructor]|constructor|]. apply at_path_loop. left. auto.
  - replace (h ++ pp ++ 47 :: t ++ 64 :: r ++ 63 :: y) with ((h ++ pp ++ 47 :: t ++ []) ++ 64 :: r ++ 63 :: y) by (rewrite app_nil_r, <- !app_assoc; reflexivity).
    eapply abs_continue; [reflexivity|exact A|exact B|constructor; [exact T|constructor]|constructor|]. apply at_path_loop. right. exists r, y. auto.
  - replace (h ++ pp ++ 47 :: t ++ 63 :: y ++ 64 :: z) with ((h ++ pp ++ 47 :: t ++ 63 :: y) ++ 64 :: z) by (rewrite <- !app_assoc; cbn [app]; rewrite <- !app_assoc; reflexivity).
    eapply abs_continue; [reflexivity|exact A|exact B|constructor; [exact T|constructor; exact Y]|constructor|]. apply at_query_loop. auto.
Qed.
Lemma abs_exact us pw l st : url_loop true (fresh us pw) l = Ok st <-> raw_abs us pw l st.
Proof. split; [apply (abs_sound (S (length l))); lia|apply abs_complete]. Qed.

(** ** Logins *)
Inductive raw_base : option bytes -> option bytes -> bytes -> ust -> Prop :=
| rb_plain us pw h pp po r pa q : Forall part_char h -> raw_port pp po -> raw_path_query r pa q ->
    raw_base us pw (h ++ pp ++ r) (mkUst us pw (Some h) po pa q (is_some pa) [])
| rb_path us pw h pp po t r : Forall part_char h -> raw_port pp po -> Forall path_char t -> Forall path_char r ->
    raw_base us pw (h ++ pp ++ 47 :: t ++ 64 :: r) (mkUst (Some h) (Some (47 :: t)) (Some r) po None None true [])
| rb_path_query us pw h pp po t r y : Forall part_char h -> raw_port pp po -> Forall path_char t -> Forall path_char r -> Forall query_char y ->
    raw_base us pw (h ++ pp ++ 47 :: t ++ 64 :: r ++ 63 :: y) (mkUst (Some h) (Some (47 :: t)) None po (Some r) (Some y) true [])
| rb_query us pw h pp po t y z : Forall part_char h -> raw_port pp po -> Forall path_char t -> Forall query_char y -> Forall query_char z ->
    raw_base us pw (h ++ pp ++ 47 :: t ++ 63 :: y ++ 64 :: z) (mkUst (Some h) (Some y) None po (Some (47 :: t)) (Some z) true []).
Inductive last_login : bytes -> option bytes -> option bytes -> Prop :=
| ll_none : last_login [] None None
| ll_some k a c t : logins k -> Forall part_char a -> c = 58 \/ c = 63 -> Forall secret_char t -> last_login (k ++ a ++ c :: t ++ [64]) (Some a) (Some (no_q t)).
Lemma logins_app k l : logins k -> logins l -> logins (k ++ l).
Proof.
  intros H L. induction H as [|a c t k A C T _ IH]; [exact L|]. rewrite <- !app_assoc. cbn [app]. rewrite <- app_assoc. cbn [app]. constructor; assumption.
Qed.
Lemma login_one a c t : Forall part_char a -> c = 58 \/ c = 63 -> Forall secret_char t -> logins (a ++ c :: t ++ [64]).
Proof. intros. constructor; [assumption..|constructor]. Qed.
Lemma last_login_logins k us pw : last_login k us pw -> logins k.
Proof. intros [|k' a c t K A C T]; [constructor|]. apply logins_app; [exact K|apply login_one; assumption]. Qed.
Lemma logins_last k : logins k -> exists us pw, last_login k us pw.
Proof.
  induction 1 as [|a c t k A C T H (us & pw & IH)]; [exists None, None; constructor|].
  destruct IH as [|k' a' c' t' K A' C' T'].
  - exists (Some a), (Some (no_q t)). apply (ll_some [] a c t); [constructor|assumption..].
  - exists (Some a'), (Some (no_q t')). replace (a ++ c :: t ++ 64 :: k' ++ a' ++ c' :: t' ++ [64]) with ((a ++ c :: t ++ 64 :: k') ++ a' ++ c' :: t' ++ [64]).
    + apply ll_some; [constructor; assumption|assumption..].
    + rewrite <- app_assoc. cbn [app]. rewrite <- app_assoc. reflexivity.
Qed.
Lemma raw_abs_from us pw l st : raw_abs us pw l st -> raw_base us pw l st \/ exists k us' pw' r, l = k ++ r /\ k <> [] /\ last_login k us' pw' /\ raw_base us' pw' r st.
Proof.
  induction 1 as [us pw h pp po r pa q A B C|us pw h c t l st A B C _ IH|us pw h pp po t r A B T R|us pw h pp po t r y A B T R Y|us pw h pp po t y z A B T Y Z];
    try (left; constructor; assumption).
  right. destruct IH as [IH|(k & us' & pw' & r & -> & N & L & IH)].
  - exists (h ++ c :: t ++ [64]), (Some h), (Some (no_q t)), l. split; [rewrite <- app_assoc; cbn [app]; rewrite <- app_assoc; reflexivity|].
    split; [destruct h; discriminate|]. split; [apply (ll_some [] h c t); [constructor|assumption..]|exact IH].
  - exists (h ++ c :: t ++ 64 :: k), us', pw', r. split; [rewrite <- !app_assoc; cbn [app]; rewrite <- app_assoc; reflexivity|].
    split; [destruct h; discriminate|]. split; [|exact IH]. destruct L as [|k' a' c' t' K A' C' T']; [contradiction|].
    replace (h ++ c :: t ++ 64 :: k' ++ a' ++ c' :: t' ++ [64]) with ((h ++ c :: t ++ 64 :: k') ++ a' ++ c' :: t' ++ [64]).
    + apply ll_some; [constructor; assumption|assumption..].
    + rewrite <- app_assoc. cbn [app]. rewrite <- app_assoc. reflexivity.
Qed.
Lemma base_abs us pw l st : raw_base us pw l st -> raw_abs us pw l st.
Proof. intros []; constructor; assumption. Qed.
Lemma abs_login us pw a c t l st : Forall part_char a -> c = 58 \/ c = 63 -> Forall secret_char t -> raw_abs (Some a) (Some (no_q t)) l st -> raw_abs us pw ((a ++ c :: t ++ [64]) ++ l) st.
Proof. intros. rewrite <- app_assoc. cbn [app]. rewrite <- app_assoc. cbn [app]. apply ra_login; assumption. Qed.
Lemma abs_skip k l st us pw : logins k -> (forall u w, raw_abs u w l st) -> raw_abs us pw (k ++ l) st.
Proof.
  intros K H. revert us pw. induction K as [|a c t k A C T _ IH]; intros us pw; [apply H|].
  replace ((a ++ c :: t ++ 64 :: k) ++ l) with (a ++ c :: t ++ 64 :: (k ++ l)) by (rewrite <- !app_assoc; cbn [app]; rewrite <- app_assoc; reflexivity).
  apply ra_login; [assumption..|apply IH].
Qed.
(** The state after everything behind "://". *)
Lemma raw_abs_spec l st : raw_abs None None l st <-> exists k us pw r, l = k ++ r /\ last_login k us pw /\ raw_base us pw r st.
Proof.
  split.
  - intros H. apply raw_abs_from in H as [H|(k & us & pw & r & E & _ & L & H)]; [exists [], None, None, l; split; [reflexivity|]; split; [constructor|exact H]|].
    exists k, us, pw, r. auto.
  - intros (k & us & pw & r & -> & L & H). apply base_abs in H. destruct L as [|k a c t K A C T]; [exact H|]. rewrite <- app_assoc. apply abs_skip; [exact K|].
    intros u w. apply abs_login; assumption.
Qed.
(** Where the login does not count any login will do. *)
Lemma base_any us pw us' pw' l st : raw_base us pw l st -> s_user st <> us \/ s_domain st = None \/ s_path st = None /\ s_slash st = true -> raw_base us' pw' l st.
Proof.
  intros [u w h pp po r pa q A B C|u w h pp po t r A B T R|u w h pp po t r y A B T R Y|u w h pp po t y z A B T Y Z] K; try (constructor; assumption).
  exfalso. cbn [s_user s_domain s_path s_slash] in K. destruct K as [K|[K|[K1 K2]]]; [contradiction|discriminate|subst pa; discriminate].
Qed.

(** ** The whole text *)
Lemma user_part_ok k us pw a b : last_login k us pw -> decode_opt us = Ok a -> decode_opt pw = Ok b -> user_part k a b.
Proof.
  intros [|k' x c t K A C T] D1 D2; [injection D1 as <-; injection D2 as <-; constructor|]. apply decode_opt_ok in D1, D2.
  destruct a as [a|]; [|contradiction]. destruct b as [b|]; [|contradiction]. constructor; assumption.
Qed.
Lemma user_part_raw k a b : user_part k a b -> exists us pw, last_login k us pw /\ decode_opt us = Ok a /\ decode_opt pw = Ok b.
Proof.
  intros [|k' x c t us pw K A C T D1 D2]; [exists None, None; repeat split; constructor|]. exists (Some x), (Some (no_q t)).
  split; [constructor; assumption|]. split; apply decode_opt_ok; assumption.
Qed.
Ltac some_of D x := apply decode_opt_ok in D; destruct x as [x|]; [|contradiction].
Lemma base_build s k us pw r st u : legal_scheme s -> last_login k us pw -> raw_base us pw r st -> url_build s st = Ok u ->
  url_means (scheme_str s ++ str "://" ++ k ++ r) u.
Proof.
  intros LS L H B. destruct H as [us pw h pp po r pa q A P C|us pw h pp po t r A P T R|us pw h pp po t r y A P T R Y|us pw h pp po t y z A P T Y Z];
    apply build_ok in B as (us' & pw' & dom' & po' & pa' & q' & n & D1 & D2 & D3 & D4 & D5 & D6 & D7 & ->).
  - some_of D3 dom'. destruct (raw_pq_part _ _ _ _ _ C D6 D7) as (pt & qq & -> & P1 & P2 & P3).
    apply um_absolute; try assumption; [eapply user_part_ok; eassumption|eapply raw_port_part; eassumption].
  - some_of D1 us'. some_of D2 pw'. some_of D3 dom'. injection D6 as <-. injection D7 as <-.
    apply um_at_path; try assumption; [eapply last_login_logins; eassumption|eapply raw_port_part; eassumption].
  - some_of D1 us'. some_of D2 pw'. injection D3 as <-. some_of D6 pa'. some_of D7 q'.
    apply um_at_path_query; try assumption; [eapply last_login_logins; eassumption|eapply raw_port_part; eassumption].
  - some_of D1 us'. some_of D2 pw'. injection D3 as <-. some_of D6 pa'. some_of D7 q'.
    apply um_at_query; try assumption; [eapply last_login_logins; eassumption|eapply raw_port_part; eassumption].
Qed.
Lemma parse_absolute s r : legal_scheme s -> url_parse (scheme_str s ++ str "://" ++ r) = (st <- url_loop true (fresh None None) r ;; url_build s st).
Proof.
  intros LS. change (str "://") with [58; 47; 47]. cbn [app]. destruct (legal_scheme_parse s (47 :: 47 :: r) LS) as [E (b & t & Eb & Ha)].
  unfold url_parse. rewrite E. rewrite Eb. cbn [app]. rewrite Ha. cbn [bind]. unfold expect, next. cbn [bind]. change (58 =? 58) with true. cbv iota. cbn [bind].
  change (47 =? 47) with true. cbv iota. cbn [bind]. change (47 =? 47) with true. cbv iota. cbn [bind]. reflexivity.
Qed.
Lemma url_means_iff l u : bytes_ok l -> (url_parse l = Ok u <-> url_means l u).
Proof.
  intros Hl. split.
  - intros H. destruct l as [|b l]; [discriminate|]. destruct (is_alpha b) eqn:Ea.
    + unfold url_parse in H. rewrite Ea in H. apply bind_ok in H as ([s l1] & H1 & H). apply bind_ok in H as ([[] l2] & H2 & H). apply bind_ok in H as ([[] l3] & H3 & H).
      apply bind_ok in H as ([[] l4] & H4 & H). apply bind_ok in H as (st & H5 & H).
      apply parse_scheme_sound in H1 as [Ls E]; [|assumption..]. apply expect_ok in H2, H3, H4. subst l1 l2 l3.
      rewrite E in *. change (scheme_str s ++ 58 :: 47 :: 47 :: l4) with (scheme_str s ++ str "://" ++ l4) in *.
      apply (abs_exact None None), raw_abs_spec in H5 as (k & us & pw & r & -> & L & B). eapply base_build; eassumption.
    + destruct (N.eq_dec b 47) as [->|N]; [|exfalso; unfold url_parse in H; rewrite Ea in H; destruct (b =? 47) eqn:E; [lia|discriminate]].
      apply url_exact in H; [|exact Hl|left; reflexivity]. destruct (origin_url _ _ (eq_refl : hd_error (47 :: l) = Some 47) H) as (U1 & U2 & _).
      inversion H; subst; [cbn in U2; discriminate|]. apply um_origin; assumption.
  - intros H. destruct H as [pa p qq q P N Q|s k us pw h d pp n pa p qq q LS K A D P PA Q E|s k h us pp n t pw r d LS K A D P T D2 R D3
      |s k h us pp n t pw r p y q LS K A D P T D2 R D3 Y D4|s k h us pp n t p y pw z q LS K A D P T D2 Y D3 Z D4].
    + apply url_exact; [exact Hl| |apply uf_origin; assumption]. left. destruct P; [contradiction|reflexivity].
    + rewrite parse_absolute by exact LS. destruct (user_part_raw _ _ _ K) as (u0 & p0 & L & D1 & D2). destruct (port_part_raw _ _ _ P) as (po & po' & R1 & R2 & R3).
      destruct (part_raw_pq _ _ _ _ PA Q E) as (pa0 & pa' & q0 & P1 & P2 & P3 & P4 & _).
      rewrite (proj2 (abs_exact None None _ (mkUst u0 p0 (Some h) po pa0 q0 (is_some pa0) []))).
      * cbn [bind]. apply build_ok. exists us, pw, (Some d), po', pa', q, n. split; [exact D1|]. split; [exact D2|]. split; [apply decode_opt_ok; exact D|].
        split; [exact R2|]. split; [exact R3|]. split; [exact P2|]. split; [exact P3|]. rewrite P4. reflexivity.
      * apply raw_abs_spec. exists k, u0, p0, (h ++ pp ++ pa ++ qq). split; [reflexivity|]. split; [exact L|]. constructor; assumption.
    + rewrite parse_absolute by exact LS. destruct (logins_last _ K) as (u0 & p0 & L). destruct (port_part_raw _ _ _ P) as (po & po' & R1 & R2 & R3).
      rewrite (proj2 (abs_exact None None _ (mkUst (Some h) (Some (47 :: t)) (Some r) po None None true []))).
      * cbn [bind]. apply build_ok. exists (Some us), (Some pw), (Some d), po', None, None, n.
        repeat (split; [first [reflexivity|assumption|apply decode_opt_ok; assumption]|]). reflexivity.
      * apply raw_abs_spec. exists k, u0, p0, (h ++ pp ++ 47 :: t ++ 64 :: r). split; [reflexivity|]. split; [exact L|]. constructor; assumption.
    + rewrite parse_absolute by exact LS. destruct (logins_last _ K) as (u0 & p0 & L). destruct (port_part_raw _ _ _ P) as (po & po' & R1 & R2 & R3).
      rewrite (proj2 (abs_exact None None _ (mkUst (Some h) (Some (47 :: t)) None po (Some r) (Some y) true []))).
      * cbn [bind]. apply build_ok. exists (Some us), (Some pw), None, po', (Some p), (Some q), n.
        repeat (split; [first [reflexivity|assumption|apply decode_opt_ok; assumption]|]). reflexivity.
      * apply raw_abs_spec. exists k, u0, p0, (h ++ pp ++ 47 :: t ++ 64 :: r ++ 63 :: y). split; [reflexivity|]. split; [exact L|]. constructor; assumption.
    + rewrite parse_absolute by exact LS. destruct (logins_last _ K) as (u0 & p0 & L). destruct (port_part_raw _ _ _ P) as (po & po' & R1 & R2 & R3).
      rewrite (proj2 (abs_exact None None _ (mkUst (Some h) (Some y) None po (Some (47 :: t)) (Some z) true []))).
      * cbn [bind]. apply build_ok. exists (Some us), (Some pw), None, po', (Some p), (Some q), n.
        repeat (split; [first [reflexivity|assumption|apply decode_opt_ok; assumption]|]). reflexivity.
      * apply raw_abs_spec. exists k, u0, p0, (h ++ pp ++ 47 :: t ++ 63 :: y ++ 64 :: z). split; [reflexivity|]. split; [exact L|]. constructor; assumption.
Qed.
(** Behind the logins the rest is read as if they were not there. *)
Lemma loop_logins k r : logins k -> forall us pw, exists us' pw', url_loop true (fresh us pw) (k ++ r) = url_loop true (fresh us' pw') r.
Proof.
  induction 1 as [|a c t k A C T _ IH]; intros us pw; [exists us, pw; reflexivity|]. destruct (IH (Some a) (Some (no_q t))) as (us' & pw' & E). exists us', pw'. rewrite <- E.
  assert (N : ~ In 64 (a ++ (c :: t) ++ [])) by (eapply parts_no_at; [exact A|constructor; eassumption|constructor]).
  destruct (proj2 (at_step us pw _ (fresh (Some a) (Some (no_q t))) N)) as (s1 & H1 & H2).
  { exists a, (c :: t), (Some (no_q t)), [], None, None. split; [reflexivity|]. split; [exact A|]. split; [constructor; assumption|]. split; [constructor|]. constructor. reflexivity. }
  replace ((a ++ c :: t ++ 64 :: k) ++ r) with ((a ++ (c :: t) ++ []) ++ 64 :: k ++ r) by (rewrite app_nil_r, <- !app_assoc; cbn [app]; rewrite <- !app_assoc; reflexivity).
  rewrite loop_run, H1. cbn [bind url_loop]. rewrite H2. reflexivity.
Qed.
Lemma login_path s k r u : legal_scheme s -> logins k -> ~ In 64 r -> url_parse (scheme_str s ++ str "://" ++ k ++ r) = Ok u ->
  hd_error (u_path u) = Some 47 /\ u_domain u <> None.
Proof.
  intros LS K N H. rewrite parse_absolute in H by exact LS. apply bind_ok in H as (st & H & B). destruct (loop_logins k r K None None) as (us & pw & E). rewrite E in H.
  apply abs_loop_login in H as (h & pp & po & r' & pa & q & -> & A & P & Q & ->); [|exact N].
  apply build_ok in B as (us' & pw' & dom' & po' & pa' & q' & n & D1 & D2 & D3 & D4 & D5 & D6 & D7 & ->). cbn [u_path u_domain].
  some_of D3 dom'. split; [|discriminate]. destruct Q as [|t qq y T Y]; [injection D6 as <-; reflexivity|]. some_of D6 pa'.
  destruct D6 as [D6 _]. inversion D6; subst; reflexivity.
Qed.
