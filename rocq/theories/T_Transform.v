(** * Property theorems: C74 (texts of any length, through buffers) *)
From Coq Require Import Lia ZifyBool ZifyNat ZifyN.
From Verif Require Import M_Base M_Utf8 M_Big5 M_Transform.
From Verif Require Import S_Json S_Layout S_Big5.
From Verif Require Import P_Base P_Regex P_Json T_Big5 T_Big5Use.
Open Scope N_scope.

Lemma decode_step_size tb c0 rest : (1 <= snd (decode_step tb c0 rest) <= S (length rest))%nat.
Proof.
  unfold decode_step. destruct (_ <? 0x80); [cbn; lia|]. destruct (_ && _); [|cbn; lia]. destruct rest as [|c1 rest]; [cbn; lia|].
  destruct (_ && _); [cbn; lia|]. destruct (_ && _); [cbn; lia|]. destruct (_ <? 0x40); cbn; lia.
Qed.
Lemma decode_fuel tb : forall f g s, (length s <= f)%nat -> (length s <= g)%nat -> decode_loop tb f s = decode_loop tb g s.
Proof.
  induction f as [|f IH]; intros g s F G; [destruct s; [|cbn in F; lia]; now destruct g|].
  destruct s as [|c0 rest]; [now destruct g|]. destruct g as [|g]; [cbn in G; lia|]. cbn [decode_loop].
  pose proof (decode_step_size tb c0 rest) as Z. destruct (decode_step tb c0 rest) as [rs size]. cbn [fst snd length] in *. f_equal. apply IH; rewrite skipn_length; cbn [length]; lia.
Qed.
Lemma big5_step tb c0 rest : Big5ToUtf8 tb (c0 :: rest) =
  concat (map EncodeRune (fst (decode_step tb c0 rest))) ++ Big5ToUtf8 tb (skipn (snd (decode_step tb c0 rest)) (c0 :: rest)).
Proof.
  unfold Big5ToUtf8 at 1. cbn [length decode_loop]. pose proof (decode_step_size tb c0 rest) as Z. destruct (decode_step tb c0 rest) as [rs size]. cbn [fst snd] in *.
  f_equal. apply decode_fuel; rewrite skipn_length; cbn [length]; lia.
Qed.
Lemma encode_rune_short c : (length (EncodeRune c) <= 4)%nat.
Proof. unfold EncodeRune. rewrite map_length. repeat match goal with |- context [if ?b then _ else _] => destruct b end; cbn; lia. Qed.
Lemma decode_step_short tb c0 rest : (length (concat (map EncodeRune (fst (decode_step tb c0 rest)))) <= 8)%nat.
Proof.
  assert (K1 : forall c, (length (concat (map EncodeRune [c])) <= 8)%nat) by (intros c; cbn [map concat]; rewrite app_nil_r; pose proof (encode_rune_short c); lia).
  assert (K2 : forall c d, (length (concat (map EncodeRune [c; d])) <= 8)%nat) by (intros c d; cbn [map concat]; rewrite app_nil_r, app_length; pose proof (encode_rune_short c); pose proof (encode_rune_short d); lia).
  assert (P : forall p, (length (concat (map EncodeRune (decode_pointer tb p))) <= 8)%nat) by (intros p; unfold decode_pointer; repeat match goal with |- context [if ?b then _ else _] => destruct b end; auto).
  unfold decode_step. destruct (_ <? 0x80); [apply K1|]. destruct (_ && _); [|apply K1]. destruct rest as [|c1 rest]; [apply K1|].
  destruct (_ && _); [apply P|]. destruct (_ && _); [apply P|]. destruct (_ <? 0x40); apply K1.
Qed.
(** One turn does not look beyond the piece it has, unless the piece is the first half of a
    character. *)
Lemma decode_step_more tb c0 rest more : rest <> [] \/ (0x81 <=? b2n c0) && (b2n c0 <? 0xFF) = false -> decode_step tb c0 (rest ++ more) = decode_step tb c0 rest.
Proof. intros [H|H]; unfold decode_step; [destruct rest as [|c1 rest]; [now contradiction H|reflexivity]|]. rewrite H. reflexivity. Qed.

Lemma decoder_transform tb : forall fuel room src atEOF more o n e, (length src <= fuel)%nat -> (atEOF = true -> more = []) ->
  DecoderTransform tb fuel room src atEOF = (o, n, e) ->
  (n <= length src)%nat /\ (length o <= room)%nat /\ (o <> [] -> (1 <= n)%nat) /\
  Big5ToUtf8 tb (src ++ more) = o ++ Big5ToUtf8 tb (skipn n (src ++ more)) /\
  match e with
  | TNil => n = length src
  | TShortDst => (room - length o < 8)%nat
  | TShortSrc => atEOF = false /\ (length src <= S n)%nat
  | TReplace => False
  end.
Proof.
  induction fuel as [|fuel IH]; intros room src atEOF more o n e L M T.
  { destruct src; [|cbn in L; lia]. injection T as <- <- <-. repeat split; try (cbn; lia); now intros []. }
  destruct src as [|c0 rest]; [injection T as <- <- <-; repeat split; try (cbn; lia); now intros []|]. cbn [DecoderTransform] in T.
  destruct ((0x81 <=? b2n c0) && (b2n c0 <? 0xFF) && negb atEOF && (length rest =? 0)%nat) eqn:A.
  { injection T as <- <- <-. destruct atEOF; [lia|]. repeat split; try (cbn [length]; lia); now intros []. }
  assert (ST : decode_step tb c0 (rest ++ more) = decode_step tb c0 rest).
  { destruct (atEOF) eqn:EO; [rewrite (M eq_refl), app_nil_r; reflexivity|]. apply decode_step_more. destruct rest; [right|now left]. cbn in A. destruct ((0x81 <=? b2n c0) && (b2n c0 <? 0xFF)); [discriminate A|reflexivity]. }
  pose proof (big5_step tb c0 (rest ++ more)) as B. rewrite ST in B. pose proof (decode_step_size tb c0 rest) as Z. pose proof (decode_step_short tb c0 rest) as S8.
  destruct (decode_step tb c0 rest) as [rs size]. cbn [fst snd] in *. cbv zeta in T. set (out := concat (map EncodeRune rs)) in *.
  destruct (room <? length out)%nat eqn:R.
  { injection T as <- <- <-. repeat split; try (cbn [length]; lia); now intros []. }
  destruct (DecoderTransform tb fuel (room - length out) (skipn size (c0 :: rest)) atEOF) as [[o1 n1] e1] eqn:D. injection T as <- <- <-.
  assert (LL : (length (skipn size (c0 :: rest)) <= fuel)%nat) by (rewrite skipn_length; cbn [length] in *; lia).
  destruct (IH _ _ _ more _ _ _ LL M D) as (N1 & O1 & _ & E1 & X). clear LL. rewrite skipn_length in *. cbn [length] in *.
  split; [lia|]. rewrite app_length. split; [lia|]. split; [lia|]. split.
  - cbn [app]. rewrite B, <- app_assoc. f_equal. assert (SK : skipn size (c0 :: rest ++ more) = skipn size (c0 :: rest) ++ more) by (change (c0 :: rest ++ more) with ((c0 :: rest) ++ more); rewrite skipn_app; replace (size - length (c0 :: rest))%nat with 0%nat by (cbn [length]; lia); reflexivity).
    rewrite SK, E1. f_equal. f_equal. rewrite <- SK. rewrite skipn_skipn. f_equal. lia.
  - destruct e1; [lia|lia| |exact X]. destruct X as [X Y]. split; [exact X|lia].
Qed.

Lemma grow_more m : (m + 8 <= grow m)%nat.
Proof. unfold grow. destruct (m <=? 32)%nat eqn:A; [lia|]. destruct (m <=? 256)%nat eqn:B; [lia|]. pose proof (Nat.div2_odd m) as O. destruct (Nat.odd m); cbn [Nat.b2n] in O; lia. Qed.
Definition tight (cap done : nat) : nat := if (cap - done <? 8)%nat then 1%nat else 0%nat.
Lemma tight_le c d : (tight c d <= 1)%nat.
Proof. unfold tight. destruct (_ <? 8)%nat; lia. Qed.

Lemma string_rest_ok tb : forall fuel done cap scap rest, (2 <= scap)%nat -> (length done <= cap)%nat -> (2 * length rest + tight cap (length done) < fuel)%nat ->
  string_rest tb fuel done cap scap rest = Ok (done ++ Big5ToUtf8 tb rest).
Proof.
  induction fuel as [|fuel IH]; intros done cap scap rest SC CP F; [lia|]. cbn [string_rest].
  destruct (DecoderTransform tb (length (firstn scap rest)) (cap - length done) (firstn scap rest) (length (firstn scap rest) =? length rest)%nat) as [[o n] e] eqn:D.
  pose proof (firstn_length scap rest) as FL.
  assert (EO : (length (firstn scap rest) =? length rest)%nat = true -> skipn scap rest = []) by (intros E; apply skipn_all2; lia).
  destruct (decoder_transform tb _ _ _ _ _ _ _ _ (le_n _) EO D) as (N1 & O1 & P1 & E1 & X).
  rewrite firstn_skipn in E1. rewrite E1, app_assoc. pose proof (skipn_length n rest) as SL. pose proof (tight_le cap (length done)) as T1. pose proof (tight_le cap (length (done ++ o))) as T2.
  assert (OL : length (done ++ o) = (length done + length o)%nat) by apply app_length.
  destruct e.
  - destruct (length (skipn n rest) =? 0)%nat eqn:Z; [destruct (skipn n rest); [now rewrite app_nil_r|cbn in Z; lia]|]. apply IH; [exact SC|lia|lia].
  - destruct (length o =? 0)%nat eqn:Z.
    + pose proof (grow_more cap) as G. apply IH; [exact SC|lia|]. unfold tight in *. destruct (grow cap - length (done ++ o) <? 8)%nat eqn:Q; [lia|]. destruct (cap - length done <? 8)%nat eqn:Q2; lia.
    + assert (1 <= n)%nat by (apply P1; intros ->; cbn in Z; lia). apply IH; [exact SC|lia|lia].
  - destruct X as [X Y]. rewrite X. pose proof (grow_more scap) as G. apply IH; [destruct (n =? 0)%nat; lia|lia|lia].
  - contradiction.
Qed.

Lemma string_break_ok tb fuel s prefix pdst psrc o n e k : e <> TReplace -> (prefix <= length s)%nat -> pdst = (prefix + k)%nat -> (k <= length o)%nat ->
  (k <= initialBufSize)%nat -> (pdst <= length s + length o - n \/ prefix = 0)%nat -> (2 * length (skipn psrc s) + 1 < fuel)%nat ->
  Big5ToUtf8 tb s = (firstn prefix s ++ firstn k o) ++ Big5ToUtf8 tb (skipn psrc s) ->
  string_break tb fuel s prefix pdst psrc o n e = Ok (Big5ToUtf8 tb s).
Proof.
  intros NR PL -> KO KB CP F E. unfold string_break. cbv zeta. rewrite E.
  set (cap := if negb (prefix =? 0)%nat && (initialBufSize <? prefix + k)%nat then (length s + length o - n)%nat else initialBufSize).
  assert (C : (prefix + k <= cap)%nat) by (unfold cap; destruct (prefix =? 0)%nat eqn:Z; cbn [negb andb]; [lia|]; destruct (_ <? _)%nat eqn:Y; lia).
  replace (cap <? prefix + k)%nat with false by lia.
  replace (if (prefix =? 0)%nat then firstn (prefix + k) o else firstn prefix s ++ firstn (prefix + k - prefix) o) with (firstn prefix s ++ firstn k o)
    by (replace (prefix + k - prefix)%nat with k by lia; destruct (prefix =? 0)%nat eqn:Z; [replace prefix with 0%nat by lia; reflexivity|reflexivity]).
  assert (R : string_rest tb fuel (firstn prefix s ++ firstn k o) cap initialBufSize (skipn psrc s) = Ok ((firstn prefix s ++ firstn k o) ++ Big5ToUtf8 tb (skipn psrc s))).
  { apply string_rest_ok; [unfold initialBufSize; lia|rewrite app_length, !firstn_length; lia|]. pose proof (tight_le cap (length (firstn prefix s ++ firstn k o))). lia. }
  destruct e; [|exact R|exact R|now contradiction NR].
  destruct (psrc =? length s)%nat eqn:Z; [|exact R]. replace psrc with (length s) by lia. now rewrite skipn_all, app_nil_r.
Qed.

Lemma string_same_ok tb : forall fuel s prefix, (prefix <= length s)%nat -> (2 * length (skipn prefix s) + 3 <= fuel)%nat ->
  Big5ToUtf8 tb s = firstn prefix s ++ Big5ToUtf8 tb (skipn prefix s) -> string_same tb fuel s prefix = Ok (Big5ToUtf8 tb s).
Proof.
  induction fuel as [|fuel IH]; intros s prefix PL F E; [lia|]. cbn [string_same].
  set (rest := skipn prefix s) in *. set (chunk := firstn initialBufSize rest).
  destruct (DecoderTransform tb (length chunk) initialBufSize chunk (prefix + length chunk =? length s)%nat) as [[o n] e] eqn:D.
  assert (RL : length rest = (length s - prefix)%nat) by apply skipn_length. assert (FL : length chunk = Nat.min initialBufSize (length rest)) by apply firstn_length.
  assert (EO : (prefix + length chunk =? length s)%nat = true -> skipn initialBufSize rest = []) by (intros Z; apply skipn_all2; lia).
  destruct (decoder_transform tb _ _ _ _ _ _ _ _ (le_n _) EO D) as (N1 & O1 & P1 & E1 & X).
  unfold chunk in E1. rewrite firstn_skipn in E1. fold chunk in E1.
  assert (SK : skipn n rest = skipn (prefix + n) s) by (unfold rest; rewrite skipn_skipn; f_equal; lia). rewrite SK in E1.
  assert (SL : length (skipn (prefix + n) s) = (length s - (prefix + n))%nat) by apply skipn_length.
  assert (NR : e <> TReplace) by (intros ->; exact X).
  destruct (beqb o (firstn n chunk)) eqn:Q; cbn [negb].
  - apply beqb_eq in Q. assert (OL : length o = n) by (rewrite Q, firstn_length; lia).
    assert (FC : firstn n chunk = firstn n rest) by (unfold chunk; rewrite firstn_firstn; f_equal; lia).
    assert (E2 : Big5ToUtf8 tb s = firstn (prefix + n) s ++ Big5ToUtf8 tb (skipn (prefix + n) s)).
    { rewrite E at 1. rewrite E1, Q, FC, app_assoc. f_equal. unfold rest. rewrite <- (firstn_skipn prefix s) at 3. rewrite firstn_app, (firstn_all2 (firstn prefix s)) by (rewrite firstn_length; lia).
      f_equal. f_equal. rewrite firstn_length. lia. }
    assert (BR : string_break tb fuel s (prefix + n) (prefix + length o) (prefix + n) o n e = Ok (Big5ToUtf8 tb s)).
    { apply string_break_ok with (k := 0%nat); [exact NR|lia|lia|lia|lia|lia|lia|]. cbn [firstn]. now rewrite app_nil_r. }
    destruct e; [|exact BR| |now contradiction NR].
    + destruct (prefix + n =? length s)%nat eqn:Z; [|apply IH; [lia|unfold initialBufSize in *; lia|exact E2]].
      rewrite E2 at 1. replace (prefix + n)%nat with (length s) by lia. now rewrite skipn_all, app_nil_r.
    + destruct (n =? 0)%nat eqn:Z; [exact BR|]. apply IH; [lia|lia|exact E2].
  - apply string_break_ok with (k := length o); [exact NR|lia|reflexivity|lia|lia|left; lia|lia|]. rewrite firstn_all. rewrite E at 1. rewrite E1. now rewrite app_assoc.
Qed.

(** Whatever the length of the text and wherever the pieces end, reading Big5 through
    buffers is reading it at once; it ends and does not panic. *)
Theorem C74_read_in_pieces : forall tb s fuel, (2 * length s + 3 <= fuel)%nat -> transform_String tb fuel s = Ok (Big5ToUtf8 tb s).
Proof. intros tb s fuel F. unfold transform_String. destruct s as [|b s]; [reflexivity|]. apply string_same_ok; [lia|exact F|reflexivity]. Qed.
Print Assumptions C74_read_in_pieces.

Lemma encode_fuel tb : forall f g s, (length s <= f)%nat -> (length s <= g)%nat -> encode_loop tb f s = encode_loop tb g s.
Proof.
  induction f as [|f IH]; intros g s F G; [destruct s; [|cbn in F; lia]; now destruct g|].
  destruct s as [|b rest]; [now destruct g|]. destruct g as [|g]; [cbn in G; lia|]. cbn [encode_loop length] in *.
  destruct (b2n b <? 0x80); [f_equal; apply IH; lia|]. destruct (decode_rune (b :: rest)) as [[r size]|] eqn:D; [|reflexivity]. cbv zeta. destruct (_ =? 0); [reflexivity|].
  pose proof (decode_width _ _ _ D) as W. cbn [length] in W. do 2 f_equal. apply IH; rewrite skipn_length; cbn [length]; lia.
Qed.
Lemma encode_step tb b rest : Utf8ToBig5 tb (b :: rest) =
  if b2n b <? 0x80 then b :: Utf8ToBig5 tb rest
  else match decode_rune (b :: rest) with
       | Some (r, size) => if t_encode tb r =? 0 then [] else n2b (t_encode tb r / 256) :: n2b (t_encode tb r) :: Utf8ToBig5 tb (skipn size (b :: rest))
       | None => []
       end.
Proof.
  unfold Utf8ToBig5 at 1. cbn [length encode_loop]. destruct (b2n b <? 0x80); [reflexivity|]. destruct (decode_rune (b :: rest)) as [[r size]|] eqn:D; [|reflexivity]. cbv zeta. destruct (_ =? 0); [reflexivity|].
  pose proof (decode_width _ _ _ D) as W. cbn [length] in W. do 2 f_equal. apply encode_fuel; rewrite skipn_length; cbn [length]; lia.
Qed.
Lemma encoder_transform tb : forall fuel room src o n e, (length src <= fuel)%nat -> EncoderTransform tb fuel room src = (o, n, e) ->
  (n <= length src)%nat /\ (length o <= room)%nat /\ (o <> [] -> (1 <= n)%nat) /\
  match e with
  | TShortDst => Utf8ToBig5 tb src = o ++ Utf8ToBig5 tb (skipn n src) /\ (room - length o < 8)%nat
  | _ => Utf8ToBig5 tb src = o
  end.
Proof.
  induction fuel as [|fuel IH]; intros room src o n e L T.
  { destruct src; [|cbn in L; lia]. injection T as <- <- <-. repeat split; try (cbn; lia); now intros []. }
  destruct src as [|b rest]; [injection T as <- <- <-; repeat split; try (cbn; lia); now intros []|]. cbn [EncoderTransform] in T. pose proof (encode_step tb b rest) as K. cbn [length] in *.
  destruct (b2n b <? 0x80).
  - destruct (room =? 0)%nat eqn:R.
    + injection T as <- <- <-. repeat split; try (cbn [length]; lia); now intros [].
    + destruct (EncoderTransform tb fuel (room - 1) rest) as [[o1 n1] e1] eqn:D. injection T as <- <- <-. destruct (IH _ _ _ _ _ (le_S_n _ _ L) D) as (N1 & O1 & _ & X). cbn [length].
      split; [lia|]. split; [lia|]. split; [lia|]. rewrite K. destruct e1; try (now rewrite X). destruct X as [X Y]. split; [cbn [app skipn]; now rewrite X|lia].
  - destruct (decode_rune (b :: rest)) as [[r size]|] eqn:DR; [|injection T as <- <- <-; repeat split; try (cbn; lia); [now intros []|exact K]]. cbv zeta in *.
    pose proof (decode_width _ _ _ DR) as W. cbn [length] in W.
    destruct (t_encode tb r =? 0) eqn:Z; [injection T as <- <- <-; repeat split; try (cbn; lia); [now intros []|exact K]|].
    destruct (room <? 2)%nat eqn:R.
    + injection T as <- <- <-. repeat split; try (cbn [length]; lia); now intros [].
    + destruct (EncoderTransform tb fuel (room - 2) (skipn size (b :: rest))) as [[o1 n1] e1] eqn:D. injection T as <- <- <-.
      assert (LL : (length (skipn size (b :: rest)) <= fuel)%nat) by (rewrite skipn_length; cbn [length]; lia).
      destruct (IH _ _ _ _ _ LL D) as (N1 & O1 & _ & X). rewrite skipn_length in N1. cbn [length] in *.
      split; [lia|]. split; [lia|]. split; [lia|]. rewrite K. destruct e1; try (now rewrite X). destruct X as [X Y]. split; [|lia]. cbn [app]. rewrite X, skipn_skipn. do 5 f_equal. lia.
Qed.
Lemma do_append_ok tb : forall fuel done cap src, (length done <= cap)%nat -> (2 * length src + tight cap (length done) < fuel)%nat ->
  doAppend tb fuel done cap src = Ok (done ++ Utf8ToBig5 tb src).
Proof.
  induction fuel as [|fuel IH]; intros done cap src CP F; [lia|]. cbn [doAppend].
  destruct (EncoderTransform tb (length src) (cap - length done) src) as [[o n] e] eqn:D. destruct (encoder_transform tb _ _ _ _ _ _ (le_n _) D) as (N1 & O1 & P1 & X).
  destruct e; try (now rewrite X). destruct X as [X Y]. rewrite X, app_assoc. assert (OL : length (done ++ o) = (length done + length o)%nat) by apply app_length.
  pose proof (skipn_length n src) as SL. pose proof (tight_le cap (length (done ++ o))) as T2. destruct (length o =? 0)%nat eqn:Z.
  - pose proof (grow_more cap) as G. apply IH; [lia|]. unfold tight in *. destruct (grow cap - length (done ++ o) <? 8)%nat eqn:Q; [lia|]. destruct (cap - length done <? 8)%nat eqn:Q2; lia.
  - assert (1 <= n)%nat by (apply P1; intros ->; cbn in Z; lia). apply IH; [lia|lia].
Qed.
(** Writing Big5 into a buffer is writing it at once. *)
Theorem C74_written_in_pieces : forall tb s fuel, (2 * length s + 2 <= fuel)%nat -> transform_Bytes tb fuel s = Ok (Utf8ToBig5 tb s).
Proof. intros tb s fuel F. unfold transform_Bytes. apply (do_append_ok tb fuel [] (length s) s); [cbn; lia|]. pose proof (tight_le (length s) (length (@nil byte))). lia. Qed.
Print Assumptions C74_written_in_pieces.

(** A text of 127 letters and 60 Chinese characters: the first piece ends inside the first
    character, and the answer outgrows the first buffer. *)
Definition long_text : bytes := repeat x61 127 ++ concat (repeat [xb7; x73] 60).
Example C74_pieces_nonvacuous :
  transform_String sample_tables 600 long_text = Ok (repeat x61 127 ++ concat (repeat (EncodeRune 0x65B0) 60)) /\
  snd (DecoderTransform sample_tables 128 128 (firstn 128 long_text) false) = TShortSrc /\
  transform_Bytes sample_tables 700 (repeat x61 127 ++ concat (repeat (EncodeRune 0x65B0) 60)) = Ok long_text.
Proof. vm_compute. repeat split. Qed.
