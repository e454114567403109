(** * Specification of redirections (RFC 7231, 6.4.2 and 7.1.2) *)
From Verif Require Import M_Base M_Web M_Form M_Service S_Text S_Form.
Open Scope N_scope.

(** An address without its fragment. *)
Definition before_hash (s t : bytes) : Prop := ~ In "#"%byte t /\ (s = t \/ exists f, s = t ++ "#"%byte :: f).

(** What a client asks for when it is sent to [location]: browsers and Go's client turn a
    POST into a GET. *)
Definition follows (r : raw) (location : bytes) (r' : raw) : Prop :=
  before_hash location (w_target r') /\ w_authorization r' = w_authorization r /\
  (w_method r = str "POST" /\ w_method r' = str "GET" /\ w_media r' = [] /\ w_body r' = [] \/
   w_method r <> str "POST" /\ w_method r' = w_method r /\ w_media r' = w_media r /\ w_body r' = w_body r).

(** Text in a page: what stands for itself and what stands for another character. *)
Inductive html_text : bytes -> bytes -> Prop :=
| HtmlEnd : html_text [] []
| HtmlItself c t v : ~ In c (str "<>&""'") -> html_text t v -> html_text (c :: t) (c :: v)
| HtmlEntity e c t v : In (e, c) [(str "&amp;", "&"); (str "&lt;", "<"); (str "&gt;", ">"); (str "&#34;", """"); (str "&#39;", "'")]%byte ->
    html_text t v -> html_text (e ++ t) (c :: v).

(** A text in ASCII: bytes above 127 are written as a percent sign and two digits. *)
Inductive in_ascii : bytes -> bytes -> Prop :=
| AsciiEnd : in_ascii [] []
| AsciiItself c t v : b2n c < 128 -> in_ascii t v -> in_ascii (c :: t) (c :: v)
| AsciiByte c h l a b t v : 128 <= b2n c -> hexadecimal h a -> hexadecimal l b -> b2n c = 16 * a + b -> in_ascii t v -> in_ascii (c :: t) ("%"%byte :: h :: l :: v).
