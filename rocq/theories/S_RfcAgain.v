(** A URI that is parsed, shown, and parsed again (C126). *)
From Coq Require Import Ascii String NArith ZArith Bool List.
From Verif Require Import Base S_Utf8 M_Url S_Http1 S_Http1Api S_Hex S_Url S_Rfc9112 S_Rfc3986 S_RfcShow.
Import ListNotations.
Local Open Scope N_scope.

(** What the parts of a URI say, with all escapes undone, does not have these characters: [us] in the user, [pw] in the password,
    [pa] in the path and [qu] in the query. *)
Definition says_none (r : uri) (us pw pa qu : bytes) : Prop :=
  (forall a b s t, ui_user r = a ++ 58 :: b ++ [64] -> ~ In 58 a -> text_of a s -> text_of b t -> none_of us s /\ none_of pw t) /\
  (forall s, text_of (ui_path r) s -> none_of pa s) /\
  (forall y s, ui_query r = 63 :: y -> text_of y s -> none_of qu s).
(** Shown, the URI means the same to a reader of RFC 3986; *)
Definition shown_same (r : uri) : Prop :=
  (forall d, text_of (ui_host r) d -> host_plain d) /\ says_none r (str ":@/?") (str "@/?") (str "?") [].
(** shown, it is parsed to the same by the crate. *)
Definition parsed_same (r : uri) : Prop :=
  (forall d, text_of (ui_host r) d -> Forall host_char d) /\ says_none r (str ":@/?") (str ":@/?") (str "@?") (str "@").
