(** * The text of an access token: golang-jwt v3.2.2 SignedString with
    encoding/base64's URLEncoding (Go 1.14).
    Simplified: the 64 bytes of the ECDSA signature are given by a function of the signed
    text (the real ones also depend on random numbers); the key parses, so there is no error. *)
From Verif Require Import M_Base M_Web M_Json.
Open Scope N_scope.

(** encoding/base64/base64.go encodeURL *)
Definition encodeURL : bytes := str "ABCDEFGHIJKLMNOPQRSTUVWXYZabcdefghijklmnopqrstuvwxyz0123456789-_".
Definition enc64 (v : N) : byte := nth (N.to_nat (N.land v 63)) encodeURL x00.
(** encoding/base64/base64.go Encoding.Encode with padding *)
Fixpoint EncodeToString (src : bytes) : bytes :=
  match src with
  | a :: b :: c :: rest =>
      let val := N.lor (N.lor (N.shiftl (b2n a) 16) (N.shiftl (b2n b) 8)) (b2n c) in
      enc64 (N.shiftr val 18) :: enc64 (N.shiftr val 12) :: enc64 (N.shiftr val 6) :: enc64 val :: EncodeToString rest
  | [a; b] =>
      let val := N.lor (N.shiftl (b2n a) 16) (N.shiftl (b2n b) 8) in
      [enc64 (N.shiftr val 18); enc64 (N.shiftr val 12); enc64 (N.shiftr val 6); "="%byte]
  | [a] =>
      let val := N.shiftl (b2n a) 16 in
      [enc64 (N.shiftr val 18); enc64 (N.shiftr val 12); "="%byte; "="%byte]
  | [] => []
  end.
(** strings.TrimRight(s, "=") *)
Fixpoint drop_equals (r : bytes) : bytes :=
  match r with c :: r' => if Byte.eqb c "=" then drop_equals r' else r | [] => [] end.
Definition TrimRightEquals (s : bytes) : bytes := rev (drop_equals (rev s)).
(** golang-jwt token.go EncodeSegment *)
Definition EncodeSegment (seg : bytes) : bytes := TrimRightEquals (EncodeToString seg).

(** golang-jwt token.go NewWithClaims: the header is a map *)
Definition header_value : value := VMap [(str "typ", VStr (str "JWT")); (str "alg", VStr (str "ES256"))].
(** golang-jwt claims.go StandardClaims: the fields aud, exp, jti, iat, iss, nbf, sub in
    this order, each with omitempty; serverlet/route_token.go:94-98 sets two of them *)
Definition claims_value (t : token) : value :=
  VStruct ((if (t_expires t =? 0)%Z then [] else [(str "exp", VInt (t_expires t))]) ++
           match t_subject t with [] => [] | s => [(str "sub", VStr s)] end).
(** golang-jwt token.go SigningString *)
Definition SigningString (t : token) : bytes :=
  EncodeSegment (Marshal header_value) ++ "."%byte :: EncodeSegment (Marshal (claims_value t)).
(** golang-jwt token.go SignedString, ecdsa.go Sign; serverlet/route_token.go:120-126 *)
Definition SignedString (sign : bytes -> bytes) (t : token) : bytes :=
  SigningString t ++ "."%byte :: EncodeSegment (sign (SigningString t)).
