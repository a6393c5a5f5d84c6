(** What any URL text means to the parser, with '@' in any place (C23). *)
From Coq Require Import Ascii String NArith ZArith Bool List.
From Verif Require Import Base S_Utf8 M_Url S_Http1 S_Http1Api S_Hex S_Url.
Import ListNotations.
Local Open Scope N_scope.

(** Any number of user:password@ in front of the host.  (As in a port, '?' is taken for ':' and later '?' are skipped.) *)
Definition secret_char (b : N) : Prop := part_char b \/ b = 63.
Inductive logins : bytes -> Prop :=
| lg_nil : logins []
| lg_cons a c t l : Forall part_char a -> c = 58 \/ c = 63 -> Forall secret_char t -> logins l -> logins (a ++ c :: t ++ 64 :: l).
(** The last of them counts, the others are not even decoded. *)
Inductive user_part : bytes -> option bytes -> option bytes -> Prop :=
| up_none : user_part [] None None
| up_last k a c t us pw : logins k -> Forall part_char a -> c = 58 \/ c = 63 -> Forall secret_char t ->
    text_of a us -> text_of (filter (fun b => negb (b =? 63)) t) pw -> user_part (k ++ a ++ c :: t ++ [64]) (Some us) (Some pw).
(** The texts that the parser accepts and the URLs that it makes of them. *)
Inductive url_means : bytes -> url -> Prop :=
| um_origin pa p qq q : path_part pa p -> pa <> [] -> query_part qq q ->
    url_means (pa ++ qq) (mkUrl ScNone p None None None (Some 0) q)
| um_absolute s k us pw h d pp n pa p qq q : legal_scheme s -> user_part k us pw -> Forall part_char h -> text_of h d ->
    port_part s pp n -> path_part pa p -> query_part qq q -> (pa = [] -> qq = []) ->
    url_means (scheme_str s ++ str "://" ++ k ++ h ++ pp ++ pa ++ qq) (mkUrl s p us pw (Some d) (Some n) q)
(** An '@' in the path: what was host and path becomes user and password, the rest is the host. *)
| um_at_path s k h us pp n t pw r d : legal_scheme s -> logins k -> Forall part_char h -> text_of h us -> port_part s pp n ->
    Forall path_char t -> text_of (47 :: t) pw -> Forall path_char r -> text_of r d ->
    url_means (scheme_str s ++ str "://" ++ k ++ h ++ pp ++ 47 :: t ++ 64 :: r) (mkUrl s (str "/") (Some us) (Some pw) (Some d) (Some n) None)
(** An '@' in the path and a '?' behind it: no host, and the rest up to '?' is the path. *)
| um_at_path_query s k h us pp n t pw r p y q : legal_scheme s -> logins k -> Forall part_char h -> text_of h us -> port_part s pp n ->
    Forall path_char t -> text_of (47 :: t) pw -> Forall path_char r -> text_of r p -> Forall query_char y -> text_of y q ->
    url_means (scheme_str s ++ str "://" ++ k ++ h ++ pp ++ 47 :: t ++ 64 :: r ++ 63 :: y) (mkUrl s p (Some us) (Some pw) None (Some n) (Some q))
(** An '@' in the query: no host, the query is what follows, and what was before it is the password. *)
| um_at_query s k h us pp n t p y pw z q : legal_scheme s -> logins k -> Forall part_char h -> text_of h us -> port_part s pp n ->
    Forall path_char t -> text_of (47 :: t) p -> Forall query_char y -> text_of y pw -> Forall query_char z -> text_of z q ->
    url_means (scheme_str s ++ str "://" ++ k ++ h ++ pp ++ 47 :: t ++ 63 :: y ++ 64 :: z) (mkUrl s p (Some us) (Some pw) None (Some n) (Some q)).
