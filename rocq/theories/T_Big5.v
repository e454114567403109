(** * Property theorems: C74 (texts in Big5) *)
From Coq Require Import Lia ZifyBool ZifyNat ZifyN.
From Verif Require Import M_Base M_Utf8 M_Big5.
From Verif Require Import S_Json S_Layout S_Big5.
From Verif Require Import P_Base P_Regex P_Json.
Open Scope N_scope.

Lemma encode_rune_utf8 c : code_point c -> EncodeRune c = utf8 c.
Proof.
  intros P. unfold EncodeRune, utf8, code_point in *. f_equal.
  replace (c <=? 0x7F) with (c <? 0x80) by lia. replace (c <=? 0x7FF) with (c <? 0x800) by lia. replace (c <=? 0xFFFF) with (c <? 0x10000) by lia.
  destruct (c <? 0x80); [reflexivity|]. destruct (c <? 0x800); [reflexivity|].
  replace ((0x10FFFF <? c) || (0xD800 <=? c) && (c <=? 0xDFFF)) with false by lia. reflexivity.
Qed.
Lemma pointer_fun l r p p' : pointer l r p -> pointer l r p' -> p = p'.
Proof. unfold pointer. lia. Qed.
Lemma in_doubles p cs : In (p, cs) doubles -> In p [1133; 1135; 1164; 1166].
Proof. intros H. cbn in H. repeat destruct H as [H|H]; try (injection H as <- _; cbn; tauto). destruct H. Qed.
Lemma doubles_fun p cs cs' : In (p, cs) doubles -> In (p, cs') doubles -> cs = cs'.
Proof. cbn. intros H H'. repeat destruct H as [H|H]; try contradiction; injection H as <- <-; repeat destruct H' as [H'|H']; try contradiction; try discriminate H'; now injection H' as <-. Qed.
Lemma double_points p cs : In (p, cs) doubles -> Forall code_point cs.
Proof. intros H. cbn in H. repeat destruct H as [H|H]; try (injection H as _ <-; repeat constructor; fail). destruct H. Qed.
Lemma stands_fun tb l r cs cs' : good_tables tb -> stands_for tb l r cs -> stands_for tb l r cs' -> cs = cs'.
Proof.
  intros (_ & G & _) (p & P & H) (p' & P' & H'). rewrite (pointer_fun _ _ _ _ P' P) in H'.
  destruct H as [[_ D]|(c & I & ->)], H' as [[_ D']|(c' & I' & ->)].
  - exact (doubles_fun _ _ _ D D').
  - exfalso. exact (G _ _ _ D I').
  - exfalso. exact (G _ _ _ D' I).
  - f_equal. destruct I as (_ & <- & _), I' as (_ & <- & _). reflexivity.
Qed.
Lemma stands_points tb l r cs : good_tables tb -> stands_for tb l r cs -> Forall code_point cs.
Proof.
  intros (G & _) (p & _ & [[_ D]|(c & I & ->)]); [exact (double_points _ _ D)|]. constructor; [exact (proj2 (G _ _ I))|constructor].
Qed.

(** One turn of the decoder *)
Lemma decode_pointer_cases tb i : good_tables tb ->
  (i < t_len tb /\ In (i, decode_pointer tb i) doubles \/ exists c, indexed tb i c /\ decode_pointer tb i = [c]) \/
  (forall cs, ~ (i < t_len tb /\ In (i, cs) doubles)) /\ (forall c, ~ indexed tb i c) /\ decode_pointer tb i = [0xFFFD].
Proof.
  intros _. unfold decode_pointer. destruct (i <? t_len tb) eqn:L.
  - destruct (i =? 1133) eqn:A; [left; left; split; [lia|]; replace i with 1133 by lia; cbn; tauto|].
    destruct (i =? 1135) eqn:B; [left; left; split; [lia|]; replace i with 1135 by lia; cbn; tauto|].
    destruct (i =? 1164) eqn:C; [left; left; split; [lia|]; replace i with 1164 by lia; cbn; tauto|].
    destruct (i =? 1166) eqn:D; [left; left; split; [lia|]; replace i with 1166 by lia; cbn; tauto|].
    destruct (t_decode tb i =? 0) eqn:E.
    + right. split; [|split; [|reflexivity]]; [intros cs [_ H]; apply in_doubles in H; cbn in H; lia|]. intros c (_ & H & N). lia.
    + left. right. exists (t_decode tb i). split; [|reflexivity]. repeat split; lia.
  - right. split; [intros cs [H _]; lia|]. split; [intros c (H & _); lia|reflexivity].
Qed.
Lemma decode_step_ok tb c0 rest : good_tables tb -> forall t,
  big5_reads tb (skipn (snd (decode_step tb c0 rest)) (c0 :: rest)) t -> big5_reads tb (c0 :: rest) (fst (decode_step tb c0 rest) ++ t).
Proof.
  intros G t. unfold decode_step. pose proof (b2n_lt c0) as L0.
  destruct (b2n c0 <? 0x80) eqn:A; [cbn [fst snd skipn app]; intros H; apply B5Ascii; [lia|exact H]|].
  destruct ((0x81 <=? b2n c0) && (b2n c0 <? 0xFF)) eqn:B; [|cbn [fst snd skipn app]; intros H; apply B5Alone; [lia|unfold lead; lia|exact H]].
  destruct rest as [|c1 rest]; [cbn [fst snd skipn app]; intros H; apply B5Alone; [lia|now left|exact H]|]. pose proof (b2n_lt c1) as L1.
  assert (K : forall p, pointer c0 c1 p -> 0x40 <= b2n c1 -> big5_reads tb rest t -> big5_reads tb (c0 :: c1 :: rest) (decode_pointer tb p ++ t)).
  { intros p P R H. destruct (decode_pointer_cases tb p G) as [S|(N1 & N2 & ->)].
    - apply B5Pair; [|exact H]. exists p. split; [exact P|]. destruct S as [S|(c & I & E)]; [now left|right; now exists c].
    - apply B5Unknown; [unfold lead; lia|exact R| |exact H]. intros cs (p' & P' & S). rewrite (pointer_fun _ _ _ _ P' P) in S. destruct S as [S|(c & I & _)]; [exact (N1 _ S)|exact (N2 _ I)]. }
  destruct ((0x40 <=? b2n c1) && (b2n c1 <? 0x7F)) eqn:C; [cbn [fst snd skipn]; apply K; [split; lia|lia]|].
  destruct ((0xA1 <=? b2n c1) && (b2n c1 <? 0xFF)) eqn:D; [cbn [fst snd skipn]; apply K; [split; lia|lia]|].
  destruct (b2n c1 <? 0x40) eqn:E; cbn [fst snd skipn app]; intros H.
  - apply B5Alone; [lia| |exact H]. intros _. right. exists c1, rest. split; [reflexivity|lia].
  - apply B5Unknown; [unfold lead; lia|lia| |exact H]. intros cs (p & P & _). unfold pointer in P. lia.
Qed.
Lemma step_size tb c0 rest : snd (decode_step tb c0 rest) = 1%nat \/ snd (decode_step tb c0 rest) = 2%nat.
Proof.
  unfold decode_step. destruct (_ <? 0x80); [now left|]. destruct (_ && _); [|now left]. destruct rest as [|c1 rest]; [now left|].
  destruct (_ && _); [now right|]. destruct (_ && _); [now right|]. destruct (_ <? 0x40); [now left|now right].
Qed.
Lemma step_points tb c0 rest : good_tables tb -> Forall code_point (fst (decode_step tb c0 rest)).
Proof.
  intros G. assert (E : Forall code_point [RuneError]) by (constructor; [right; split; discriminate|constructor]).
  assert (K : forall p, Forall code_point (decode_pointer tb p)).
  { intros p. destruct (decode_pointer_cases tb p G) as [[[_ D]|(c & I & ->)]|(_ & _ & ->)]; [exact (double_points _ _ D)|constructor; [exact (proj2 (proj1 G _ _ I))|constructor]|exact E]. }
  unfold decode_step. destruct (_ <? 0x80) eqn:A; [constructor; [left; lia|constructor]|]. destruct (_ && _); [|exact E]. destruct rest as [|c1 rest]; [exact E|].
  destruct (_ && _); [apply K|]. destruct (_ && _); [apply K|]. destruct (_ <? 0x40); exact E.
Qed.
Lemma decode_loop_ok tb : good_tables tb -> forall fuel s, (length s <= fuel)%nat -> exists t, big5_reads tb s t /\ in_utf8 t (decode_loop tb fuel s).
Proof.
  intros G. induction fuel as [|fuel IH]; intros s L.
  - destruct s; [|cbn in L; lia]. exists []. split; [constructor|split; [constructor|reflexivity]].
  - destruct s as [|c0 rest]; [exists []; split; [constructor|split; [constructor|reflexivity]]|]. cbn [decode_loop].
    pose proof (decode_step_ok tb c0 rest G) as K. pose proof (step_size tb c0 rest) as Z. pose proof (step_points tb c0 rest G) as P.
    destruct (decode_step tb c0 rest) as [rs size]. cbn [fst snd] in *. destruct (IH (skipn size (c0 :: rest))) as (t & R & F & E); [rewrite skipn_length; cbn [length] in *; lia|].
    exists (rs ++ t). split; [now apply K|]. split; [now apply Forall_app|]. rewrite E, concat_utf8_app. f_equal. f_equal. apply map_ext_in. intros c I. rewrite Forall_forall in P. now apply encode_rune_utf8, P.
Qed.
Lemma reads_fun tb s t t' : good_tables tb -> big5_reads tb s t -> big5_reads tb s t' -> t = t'.
Proof.
  intros G H. revert t'. assert (SL : forall l r cs, stands_for tb l r cs -> 0x81 <= b2n l <= 0xFE /\ 0x40 <= b2n r) by (intros l r cs (p & P & _); unfold pointer in P; lia).
  induction H as [|b s t B H IH|l r s cs t S H IH|l r s t L R N H IH|b s t B A H IH]; intros t' H'.
  - now inversion H'.
  - inversion H' as [|b' s' t1 B' H1|l' r' s' cs t1 S' H1|l' r' s' t1 L' R' N' H1|b' s' t1 B' A' H1]; subst.
    + f_equal. now apply IH. + apply SL in S'. lia. + unfold lead in L'. lia. + lia.
  - inversion H' as [|b' s' t1 B' H1|l' r' s' cs' t1 S' H1|l' r' s' t1 L' R' N' H1|b' s' t1 B' A' H1]; subst.
    + apply SL in S. lia. + f_equal; [exact (stands_fun tb l r _ _ G S S')|now apply IH]. + exfalso. exact (N' _ S).
    + exfalso. apply SL in S. destruct A' as [A'|(r' & s' & A' & X)]; [exact (proj1 S)|discriminate A'|]. injection A' as <- _. lia.
  - inversion H' as [|b' s' t1 B' H1|l' r' s' cs' t1 S' H1|l' r' s' t1 L' R' N' H1|b' s' t1 B' A' H1]; subst.
    + unfold lead in L. lia. + exfalso. exact (N _ S'). + f_equal. now apply IH.
    + exfalso. destruct (A' L) as [X|(r' & s' & X & Y)]; [discriminate X|]. injection X as <- _. lia.
  - inversion H' as [|b' s' t1 B' H1|l' r' s' cs' t1 S' H1|l' r' s' t1 L' R' N' H1|b' s' t1 B' A' H1]; subst.
    + lia.
    + exfalso. apply SL in S'. destruct (A (proj1 S')) as [X|(r2 & s2 & X & Y)]; [discriminate X|]. injection X as <- _. lia.
    + exfalso. destruct (A L') as [X|(r2 & s2 & X & Y)]; [discriminate X|]. injection X as <- _. lia.
    + f_equal. now apply IH.
Qed.
(** Decoding gives the text that the bytes stand for, always proper UTF-8. *)
Theorem C74_decoded : forall tb s, good_tables tb ->
  (exists t, big5_reads tb s t) /\ forall t, big5_reads tb s t -> in_utf8 t (Big5ToUtf8 tb s).
Proof.
  intros tb s G. destruct (decode_loop_ok tb G (length s) s (le_n _)) as (t & R & U). split; [now exists t|]. intros t' R'. rewrite (reads_fun _ _ _ _ G R' R). exact U.
Qed.
Print Assumptions C74_decoded.

(** ** The encoder *)
Lemma has_code_dec tb c : good_tables tb -> 128 <= c -> (t_encode tb c = 0 /\ ~ has_code tb c) \/ (t_encode tb c <> 0 /\ exists l r, code tb c [l; r] /\ l = n2b (t_encode tb c / 256) /\ r = n2b (t_encode tb c)).
Proof.
  intros (_ & _ & G3 & G4) C. destruct (t_encode tb c =? 0) eqn:E; [left|right].
  - split; [lia|]. intros [H|[p H]]; [lia|]. apply G4 in H. lia.
  - split; [lia|]. destruct (G3 c ltac:(lia)) as (l & r & p & P & I & Q). exists l, r. split; [|].
    + right. split; [exact C|]. exists l, r. split; [reflexivity|]. split; [|exact Q]. exists p. split; [exact P|]. right. now exists c.
    + pose proof (b2n_lt l). pose proof (b2n_lt r). rewrite Q. split.
      * replace ((256 * b2n l + b2n r) / 256) with (b2n l) by euclid. now rewrite n2b_b2n.
      * symmetry. apply b2n_inj. rewrite b2n_n2b. euclid.
Qed.
Lemma high_rune s c w b rest : s = b :: rest -> 128 <= b2n b -> decode_rune s = Some (c, w) -> 128 <= c.
Proof.
  intros -> B D. destruct (decode_cases _ _ _ D) as [(P & E & _)|(-> & _)]; [|discriminate]. destruct (c <? 128) eqn:C; [|lia].
  rewrite utf8_ascii in E by lia. cbn [app] in E. injection E as E _. rewrite E, b2n_small in B; lia.
Qed.
Lemma encode_loop_ok tb : good_tables tb -> forall s fuel, (length s <= fuel)%nat -> exists a, writable_part tb (runes s) a /\ in_big5 tb a (encode_loop tb fuel s).
Proof.
  intros G s. induction s as [|s c w D IH] using symbols_ind; intros fuel L.
  { exists []. split; [split; [constructor|now left]|]. exists []. split; [constructor|now destruct fuel]. }
  pose proof (decode_width _ _ _ D) as W. destruct s as [|b rest]; [cbn in W; lia|]. destruct fuel as [|fuel]; [cbn in L; lia|].
  rewrite (runes_cons _ _ _ D). destruct (IH fuel ltac:(rewrite skipn_length; cbn [length] in *; lia)) as (a & [F Q] & ss & C & E). cbn [encode_loop].
  assert (K : has_code tb c -> writable_part tb (c :: runes (skipn w (b :: rest))) (c :: a)).
  { intros H. split; [now constructor|]. destruct Q as [->|(d & x & -> & N)]; [now left|right; now exists d, x]. }
  destruct (b2n b <? 0x80) eqn:B.
  - assert (X : c = b2n b /\ w = 1%nat) by (unfold decode_rune in D; cbv zeta in D; rewrite B in D; injection D as <- <-; now split). destruct X as [-> ->]. cbn [skipn] in *.
    exists (b2n b :: a). split; [apply K; left; lia|]. exists ([b] :: ss). split; [constructor; [|exact C]|cbn [concat app]; now rewrite E]. left. split; [lia|now rewrite n2b_b2n].
  - rewrite D. pose proof (high_rune _ _ _ b rest eq_refl ltac:(lia) D) as HC. cbv zeta. destruct (has_code_dec tb c G HC) as [[Z N]|(Z & l & r & CD & <- & <-)].
    + rewrite Z. exists []. split; [split; [constructor|]; right; exists c, (runes (skipn w (b :: rest))); now split|]. exists []. now split.
    + replace (t_encode tb c =? 0) with false by lia. exists (c :: a). split.
      * apply K. right. destruct CD as [[X _]|(_ & l' & r' & E' & (p & _ & [[_ DB]|(d & I & Y)]) & _)]; [lia| |injection Y as <-; now exists p].
        cbn in DB. repeat destruct DB as [DB|DB]; try discriminate DB. contradiction.
      * exists ([l; r] :: ss). split; [now constructor|]. cbn [concat app]. now rewrite E.
Qed.
Lemma writable_fun tb t a a' : writable_part tb t a -> writable_part tb t a' -> a = a'.
Proof.
  revert a a'. induction t as [|c t IH]; intros a a' [F H] [F' H'].
  - assert (X : forall x, ([] : list N) = x \/ (exists c b, [] = x ++ c :: b /\ ~ has_code tb c) -> x = []) by (intros x [<-|(c & b & E & _)]; [reflexivity|now destruct x]).
    now rewrite (X a H), (X a' H').
  - assert (X : forall x, Forall (has_code tb) x -> c :: t = x \/ (exists d b, c :: t = x ++ d :: b /\ ~ has_code tb d) -> x = [] /\ ~ has_code tb c \/ exists y, x = c :: y /\ has_code tb c /\ writable_part tb t y).
    { intros x Fx [<-|(d & b & E & N)].
      - right. exists t. inversion Fx as [|? ? Hc Ft]. split; [reflexivity|]. split; [exact Hc|]. split; [exact Ft|now left].
      - destruct x as [|y x]; [injection E as -> _; left; now split|]. injection E as <- ->. inversion Fx as [|? ? Hc Ft]. right. exists x. split; [reflexivity|]. split; [exact Hc|].
        split; [exact Ft|]. right. now exists d, b. }
    destruct (X a F H) as [[-> N]|(y & -> & Hc & Wy)], (X a' F' H') as [[-> N']|(y' & -> & Hc' & Wy')]; try contradiction; [reflexivity|]. f_equal. now apply IH.
Qed.
Lemma code_fun tb c s s' : code tb c s -> code tb c s' -> s = s'.
Proof.
  intros [[C ->]|(C & l & r & -> & _ & E)] [[C' ->]|(C' & l' & r' & -> & _ & E')]; try lia; [reflexivity|].
  pose proof (b2n_lt l). pose proof (b2n_lt r). pose proof (b2n_lt l'). pose proof (b2n_lt r'). f_equal; [|f_equal]; apply b2n_inj; lia.
Qed.
Lemma in_big5_fun tb t s s' : in_big5 tb t s -> in_big5 tb t s' -> s = s'.
Proof.
  intros (ss & F & ->) (ss' & F' & ->). f_equal. revert ss' F'. induction F as [|c x t ss C F IH]; intros ss' F'; inversion F' as [|? x' ? ss1 C' F1]; subst; [reflexivity|].
  f_equal; [exact (code_fun _ _ _ _ C C')|now apply IH].
Qed.
(** Encoding writes the text up to its first character that Big5 does not have (a byte that
    is no UTF-8 counts as U+FFFD), and nothing of what follows. *)
Theorem C74_encoded : forall tb s t, good_tables tb -> reads_as s t ->
  exists a, writable_part tb t a /\ forall b, in_big5 tb a b <-> Utf8ToBig5 tb s = b.
Proof.
  intros tb s t G R. rewrite (reads_as_unique _ _ R). destruct (encode_loop_ok tb G s (length s) (le_n _)) as (a & Wp & E). exists a. split; [exact Wp|].
  intros b. split; [intros H; exact (in_big5_fun _ _ _ _ E H)|intros <-; exact E].
Qed.
Print Assumptions C74_encoded.

(** ** There and back *)
Lemma in_big5_reads tb t s : good_tables tb -> in_big5 tb t s -> big5_reads tb s t.
Proof.
  intros G (ss & F & ->). induction F as [|c x t ss C F IH]; [constructor|]. cbn [concat]. destruct C as [[C ->]|(C & l & r & -> & S & _)]; cbn [app].
  - replace c with (b2n (n2b c)) at 2 by (apply b2n_small; lia). constructor; [rewrite b2n_small; lia|exact IH].
  - exact (B5Pair tb l r _ [c] t S IH).
Qed.
Lemma decoded_is tb s t : good_tables tb -> big5_reads tb s t -> Big5ToUtf8 tb s = concat (map utf8 t).
Proof. intros G R. exact (proj2 (proj2 (C74_decoded tb s G) t R)). Qed.
Lemma writable_all tb t : Forall (has_code tb) t -> writable_part tb t t.
Proof. intros F. split; [exact F|now left]. Qed.
(** What is written and read again is the text up to its first character that Big5 does not
    have; so a text with none of those comes back as it was. *)
Theorem C74_comes_back : forall tb s t a, good_tables tb -> reads_as s t -> writable_part tb t a ->
  in_utf8 a (Big5ToUtf8 tb (Utf8ToBig5 tb s)) /\ (in_utf8 t s -> Forall (has_code tb) t -> Big5ToUtf8 tb (Utf8ToBig5 tb s) = s).
Proof.
  intros tb s t a G R Wa. destruct (C74_encoded tb s t G R) as (a' & Wp & E). rewrite (writable_fun _ _ _ _ Wp Wa) in E. specialize (E (Utf8ToBig5 tb s)).
  pose proof (in_big5_reads _ _ _ G (proj2 E eq_refl)) as RD. pose proof (proj2 (C74_decoded tb _ G) _ RD) as U. split; [exact U|].
  intros [_ Es] F. rewrite (writable_fun _ _ _ _ Wa (writable_all _ _ F)) in U. destruct U as [_ U]. congruence.
Qed.
Print Assumptions C74_comes_back.

(** Bytes that spell each character in the usual way come back as they were. *)
Theorem C74_same_bytes : forall tb t s, good_tables tb -> in_big5 tb t s -> Utf8ToBig5 tb (Big5ToUtf8 tb s) = s.
Proof.
  intros tb t s G I. pose proof (proj2 (C74_decoded tb s G) t (in_big5_reads tb t s G I)) as [P E].
  assert (R : reads_as (Big5ToUtf8 tb s) t) by (rewrite E; clear - P; induction P as [|c t C P IH]; [constructor|cbn [map concat]; now constructor]).
  destruct (C74_encoded tb _ t G R) as (a & Wa & H). apply H. assert (F : Forall (has_code tb) t).
  { destruct I as (ss & I & _). clear - I G. induction I as [|c x t ss C I IH]; constructor; [|exact IH]. destruct C as [[C _]|(C & l & r & _ & (p & _ & [[_ D]|(d & X & Y)]) & _)]; [now left| |injection Y as <-; right; now exists p].
    cbn in D. repeat destruct D as [D|D]; try discriminate D. contradiction. }
  now rewrite (writable_fun _ _ _ _ Wa (writable_all _ _ F)).
Qed.
Print Assumptions C74_same_bytes.

(** A text cut off anywhere, as the fields of the records and a crash do it, is read as a
    beginning of the text, with at most one U+FFFD after it. *)
Theorem C74_cut_off : forall tb t s k, good_tables tb -> in_big5 tb t s ->
  exists j, in_utf8 (firstn j t) (Big5ToUtf8 tb (firstn k s)) \/ in_utf8 (firstn j t ++ [0xFFFD]) (Big5ToUtf8 tb (firstn k s)).
Proof.
  intros tb t s k G (ss & F & ->).
  assert (X : exists j, big5_reads tb (firstn k (concat ss)) (firstn j t) \/ big5_reads tb (firstn k (concat ss)) (firstn j t ++ [0xFFFD])).
  { revert k. induction F as [|c x t ss C F IH]; intros k; [exists 0%nat; left; rewrite firstn_nil; constructor|]. cbn [concat].
    destruct k as [|k]; [exists 0%nat; left; constructor|]. destruct C as [[C ->]|(C & l & r & -> & S & _)]; cbn [app firstn].
    - assert (Q : forall s t, big5_reads tb s t -> big5_reads tb (n2b c :: s) (c :: t)).
      { intros s0 t0 H. replace c with (b2n (n2b c)) at 2 by (apply b2n_small; lia). constructor; [rewrite b2n_small; lia|exact H]. }
      destruct (IH k) as [j [H|H]]; exists (Datatypes.S j); cbn [firstn app]; [left|right]; now apply Q.
    - destruct k as [|k]; cbn [firstn].
      + exists 0%nat. right. cbn [firstn app]. destruct S as (p & P & _). apply B5Alone; [unfold pointer in P; lia|now left|constructor].
      + destruct (IH k) as [j [H|H]]; exists (Datatypes.S j); cbn [firstn app]; [left|right]; exact (B5Pair tb l r _ [c] _ S H). }
  destruct X as [j [X|X]]; exists j; [left|right]; now apply (C74_decoded tb _ G).
Qed.
Print Assumptions C74_cut_off.

(** ** Fields *)
Lemma in_big5_size tb t s : in_big5 tb t s -> lenN s = big5_size t.
Proof.
  intros (ss & F & ->). induction F as [|c x t ss C F IH]; [reflexivity|]. cbn [concat]. unfold lenN in *. rewrite app_length. unfold big5_size in *. cbn [map fold_right].
  destruct C as [[C ->]|(C & l & r & -> & _)]; cbn [length]; [replace (c <? 128) with true by lia|replace (c <? 128) with false by lia]; lia.
Qed.
Lemma in_big5_nul tb t s : in_big5 tb t s -> ~ In 0 t -> ~ In x00 s.
Proof.
  intros (ss & F & ->). induction F as [|c x t ss C F IH]; [easy|]. cbn [concat]. intros N I. apply in_app_iff in I as [I|I]; [|apply IH; [|exact I]; intros X; apply N; now right].
  destruct C as [[C ->]|(C & l & r & -> & (p & P & _) & _)]; cbn in I.
  - destruct I as [I|[]]. apply N. left. apply (f_equal b2n) in I. rewrite b2n_small in I by lia. now rewrite I.
  - unfold pointer in P. destruct I as [I|[I|[]]]; [subst l|subst r]; cbn in P; lia.
Qed.
(** A text of characters that Big5 has, without NULs, is kept by every field it has room in:
    it takes one byte for each ASCII character and two for each other. *)
Theorem C74_fits : forall tb t s n, good_tables tb -> in_utf8 t s -> Forall (has_code tb) t -> ~ In 0 t -> big5_size t <= n ->
  big5_cstr_fits (big5 tb) n s /\ big5_text_fits (big5 tb) n s.
Proof.
  intros tb t s n G U F N L. assert (R : reads_as s t) by (destruct U as [P ->]; clear - P; induction P as [|c t C P IH]; [constructor|cbn [map concat]; now constructor]).
  destruct (C74_encoded tb s t G R) as (a & Wa & E). rewrite (writable_fun _ _ _ _ Wa (writable_all _ _ F)) in E.
  pose proof (proj2 (E _) eq_refl) as I. pose proof (in_big5_nul _ _ _ I N) as Z. pose proof (in_big5_size _ _ _ I) as Q. unfold lenN in Q.
  assert (B : Big5ToUtf8 tb (Utf8ToBig5 tb s) = s) by exact (proj2 (C74_comes_back tb s t t G R (writable_all _ _ F)) U F).
  split; (split; [exact B|]); cbn [big5 enc]; [split; [lia|exact Z]|]. split; [lia|]. split; intros s' X; apply Z; rewrite X; [now left|apply in_app_iff; right; now left].
Qed.
Print Assumptions C74_fits.
