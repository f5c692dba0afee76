(** * ChunkProofs: lemmas on ChunkedDataReader *)
From Coq Require Import List ZArith NArith Bool Lia.
From Coq Require Import ZifyBool ZifyNat ZifyN.
From Verif Require Import PyBase Facts Streams StreamSpec StreamProofs BufProofs FillProofs CallProofs ChunkSpec.
Import ListNotations.
Open Scope Z_scope.

(** ** Numerals *)
Lemma hexval_digit c : match hexval c with Some v => hex_digit c = Some (Z.of_N v) | None => hex_digit c = None end.
Proof.
  unfold hexval, hex_digit.
  destruct ((48 <=? c)%N && (c <=? 57)%N) eqn:E1.
  { replace ((48 <=? Z.of_N c) && (Z.of_N c <=? 57)) with true by lia. f_equal. lia. }
  replace ((48 <=? Z.of_N c) && (Z.of_N c <=? 57)) with false by lia.
  destruct ((97 <=? c)%N && (c <=? 102)%N) eqn:E2.
  { replace ((65 <=? Z.of_N c) && (Z.of_N c <=? 70)) with false by lia.
    replace ((97 <=? Z.of_N c) && (Z.of_N c <=? 102)) with true by lia. f_equal. lia. }
  destruct ((65 <=? c)%N && (c <=? 70)%N) eqn:E3.
  { replace ((65 <=? Z.of_N c) && (Z.of_N c <=? 70)) with true by lia. f_equal. lia. }
  replace ((65 <=? Z.of_N c) && (Z.of_N c <=? 70)) with false by lia.
  replace ((97 <=? Z.of_N c) && (Z.of_N c <=? 102)) with false by lia. reflexivity.
Qed.

Lemma hexval_lt c v : hexval c = Some v -> (v < 16)%N.
Proof.
  unfold hexval. destruct ((48 <=? c)%N && (c <=? 57)%N) eqn:E1; [intros [= <-]; lia|].
  destruct ((97 <=? c)%N && (c <=? 102)%N) eqn:E2; [intros [= <-]; lia|].
  destruct ((65 <=? c)%N && (c <=? 70)%N) eqn:E3; [intros [= <-]; lia|discriminate].
Qed.

Lemma digit_in16 c : digit_in 16 c = hexval c.
Proof.
  unfold digit_in. destruct (hexval c) as [v|] eqn:E; [|reflexivity].
  apply hexval_lt in E. now replace (v <? 16)%N with true by lia.
Qed.

Lemma hex_digit_val c v : hex_digit c = Some v -> exists w, hexval c = Some w /\ v = Z.of_N w.
Proof.
  intros H. pose proof (hexval_digit c) as Hc. destruct (hexval c) as [w|]; [|congruence].
  exists w. split; [reflexivity|]. congruence.
Qed.

Lemma int_digits_app a : forall st acc b v, int_digits 16 st acc a = Some v -> a <> [] -> st = true \/ True ->
  Forall (fun c => hexval c <> None) a ->
  int_digits 16 st acc (a ++ b) = int_digits 16 true v b.
Proof.
  induction a as [|c a IH]; intros st acc b v H Ha Hs Hf; [contradiction|].
  inversion Hf as [|? ? Hc Hf']; subst.
  cbn [app int_digits] in *. rewrite digit_in16 in *. destruct (hexval c) as [d|]; [|contradiction].
  destruct a as [|c2 a].
  - cbn in H. injection H as <-. reflexivity.
  - apply (IH true); auto. discriminate.
Qed.

Lemma hex_number_chars l n : hex_number l n -> Forall (fun c => hexval c <> None) l /\ l <> [].
Proof.
  induction 1 as [c v H|l n c v Hl [IH Hn] H]; apply hex_digit_val in H as (w & E & _).
  - split; [|discriminate]. constructor; [|constructor]. congruence.
  - split; [|destruct l; discriminate]. apply Forall_app. split; [assumption|]. constructor; [congruence|constructor].
Qed.

Lemma hex_number_val l n : hex_number l n -> 0 <= n /\ int_digits 16 false 0 l = Some (Z.to_N n).
Proof.
  induction 1 as [c v H|l n c v Hl [IH0 IH] H].
  - apply hex_digit_val in H as (w & E & ->). cbn. rewrite digit_in16, E. split; [lia|]. f_equal. lia.
  - pose proof (hex_number_chars _ _ Hl) as [Hf Hne]. apply hex_digit_val in H as (w & E & ->).
    split; [lia|]. rewrite (int_digits_app _ _ _ _ _ IH Hne (or_intror Logic.I) Hf). cbn [int_digits].
    rewrite digit_in16, E. f_equal. lia.
Qed.

Lemma hexchar_bounds c : hexval c <> None -> (48 <= c <= 57 \/ 65 <= c <= 70 \/ 97 <= c <= 102)%N.
Proof.
  unfold hexval. destruct ((48 <=? c)%N && (c <=? 57)%N) eqn:E1; [lia|].
  destruct ((97 <=? c)%N && (c <=? 102)%N) eqn:E2; [lia|].
  destruct ((65 <=? c)%N && (c <=? 70)%N) eqn:E3; [lia|]. congruence.
Qed.

Lemma bspace_white c : is_bspace c = true <-> (c = 32 \/ c = 9 \/ c = 10 \/ c = 11 \/ c = 12 \/ c = 13)%N.
Proof. unfold is_bspace. lia. Qed.

Lemma py_int16_hex l n : hex_number l n -> py_int16 l = Some n.
Proof.
  intros H. pose proof (hex_number_chars _ _ H) as [Hf Hne]. pose proof (hex_number_val _ _ H) as [H0 E].
  unfold py_int16, int_core.
  assert (Hs : stripp is_bspace l = l).
  { unfold stripp. assert (forall c, In c l -> is_bspace c = false) as Hb.
    { intros c Hc. rewrite Forall_forall in Hf. specialize (Hf c Hc). apply hexchar_bounds in Hf.
      destruct (is_bspace c) eqn:Eb; [|reflexivity]. apply bspace_white in Eb. lia. }
    rewrite rstripp_id.
    - apply lstripp_id. destruct l; [exact Logic.I|]. apply Hb. now left.
    - right. destruct (exists_last Hne) as (a & c & Ea). exists a, c. split; [assumption|].
      apply Hb. rewrite Ea, in_app_iff. right. now left. }
  rewrite Hs. cbn [N.eqb Pos.eqb].
  destruct l as [|c l]; [contradiction|]. inversion Hf as [|? ? Hc Hf']; subst. apply hexchar_bounds in Hc.
  assert (Em : (match c :: l with 43%N :: t => (false, t) | 45%N :: t => (true, t) | _ => (false, c :: l) end) = (false, c :: l)).
  { destruct c as [|p]; [reflexivity|]. do 6 (destruct p as [p|p|]; try reflexivity); exfalso; lia. }
  rewrite Em.
  assert (Ex : (match c :: l with
             | 48%N :: x :: t => if ((x =? 120)%N || (x =? 88)%N)%bool then match t with 95%N :: t' => t' | _ => t end else c :: l
             | _ => c :: l end) = c :: l).
  { destruct l as [|x t]; [destruct c as [|p]; [reflexivity|do 6 (destruct p as [p|p|]; try reflexivity)]|].
    inversion Hf' as [|? ? Hx _]; subst. apply hexchar_bounds in Hx.
    replace ((x =? 120)%N || (x =? 88)%N) with false by lia.
    destruct c as [|p]; [reflexivity|do 6 (destruct p as [p|p|]; try reflexivity)]. }
  rewrite Ex, E. f_equal. lia.
Qed.

(** soundness of the model's int(b, 16) *)
Lemma int_digits_sound l : forall st acc n l0,
  int_digits 16 st acc l = Some n ->
  (st = true -> digits16 l0 (Z.of_N acc)) ->
  (st = false -> (l0 = [] /\ acc = 0%N) \/ exists l1, l0 = l1 ++ [95%N] /\ digits16 l1 (Z.of_N acc)) ->
  digits16 (l0 ++ l) (Z.of_N n).
Proof.
  induction l as [|c l IH]; intros st acc n l0 H Ht Hf.
  - cbn in H. destruct st; [|discriminate]. injection H as <-. rewrite app_nil_r. auto.
  - cbn [int_digits] in H. rewrite digit_in16 in H.
    replace (l0 ++ c :: l) with ((l0 ++ [c]) ++ l) by (now rewrite <- app_assoc).
    pose proof (hexval_digit c) as Hc. destruct (hexval c) as [d|] eqn:Ec.
    + apply (IH true _ _ _ H); [|discriminate]. intros _.
      replace (Z.of_N (acc * 16 + d)) with (16 * Z.of_N acc + Z.of_N d) by lia.
      destruct st.
      * constructor; auto.
      * destruct (Hf eq_refl) as [(-> & ->)|(l1 & -> & H1)].
        -- cbn. rewrite <- app_nil_l with (l := [c]). constructor. exact Hc.
        -- rewrite <- app_assoc. cbn [app]. now constructor.
    + destruct ((c =? 95)%N && st) eqn:Eu; [|discriminate].
      apply andb_prop in Eu as [Eu ->]. apply N.eqb_eq in Eu. subst c.
      destruct l as [|c2 l2]; [discriminate|]. destruct (digit_in 16 c2); [|discriminate].
      apply (IH false _ _ _ H); [discriminate|]. intros _. right. exists l0. auto.
Qed.

Lemma white_forallb l : forallb is_bspace l = true -> white l.
Proof.
  intros H. rewrite forallb_forall in H. apply Forall_forall. intros x Hx. apply bspace_white. auto.
Qed.

Lemma lstripp_split p l : exists a, l = a ++ lstripp p l /\ forallb p a = true.
Proof.
  induction l as [|c l IH]; [exists []; auto|]. cbn. destruct (p c) eqn:E.
  - destruct IH as (a & Ea & Ha). exists (c :: a). cbn. rewrite E, Ha. rewrite <- Ea. auto.
  - exists []. auto.
Qed.

Lemma py_int16_sound l n : py_int16 l = Some n -> int16_literal l n.
Proof.
  unfold py_int16, int_core. intros H.
  assert (exists w1 w2, l = w1 ++ stripp is_bspace l ++ w2 /\ white w1 /\ white w2) as (w1 & w2 & El & Hw1 & Hw2).
  { unfold stripp. destruct (rstripp_split is_bspace l) as (b & Eb & Hb).
    destruct (lstripp_split is_bspace (rstripp is_bspace l)) as (a & Ea & Ha).
    exists a, b. split; [|split; now apply white_forallb]. rewrite app_assoc, <- Ea. exact Eb. }
  set (m := stripp is_bspace l) in *. clearbody m.
  assert (exists sign m2 neg, m = sign ++ m2 /\
     (match m with 43%N :: t => (false, t) | 45%N :: t => (true, t) | _ => (false, m) end) = (neg, m2)
     /\ ((In sign [[]; [43%N]] /\ neg = false) \/ (sign = [45%N] /\ neg = true))) as (sign & m2 & neg & Em & Esign & Hsign).
  { destruct m as [|c t]; [exists [], [], false; repeat split; left; cbn; auto|].
    destruct (N.eq_dec c 43) as [->|H1]; [exists [43%N], t, false; repeat split; left; cbn; auto|].
    destruct (N.eq_dec c 45) as [->|H2]; [exists [45%N], t, true; repeat split; right; cbn; auto|].
    exists [], (c :: t), false. split; [reflexivity|]. split; [|left; cbn; auto].
    destruct c as [|p]; [reflexivity|]. do 6 (destruct p as [p|p|]; try reflexivity); congruence. }
  rewrite Esign in H. cbn [N.eqb Pos.eqb] in H.
  set (m3 := match m2 with
             | 48%N :: x :: t => if ((x =? 120)%N || (x =? 88)%N)%bool then match t with 95%N :: t' => t' | _ => t end else m2
             | _ => m2 end) in H.
  assert (exists prefix, m2 = prefix ++ m3 /\ In prefix [[]; [48; 120]; [48; 88]; [48; 120; 95]; [48; 88; 95]]%N)
    as (prefix & Ep & Hp).
  { unfold m3. destruct m2 as [|c m2']; [exists []; cbn; auto|].
    destruct (N.eq_dec c 48) as [->|Hc].
    2:{ exists []. split; [|cbn; auto]. destruct c as [|p]; [reflexivity|]. do 6 (destruct p as [p|p|]; try reflexivity). congruence. }
    destruct m2' as [|x t]; [exists []; cbn; auto|].
    destruct ((x =? 120)%N || (x =? 88)%N) eqn:Ex; [|exists []; cbn; auto].
    destruct t as [|u t'].
    { exists [48%N; x]. split; [reflexivity|]. assert (x = 120 \/ x = 88)%N as [->| ->] by lia; cbn; auto 10. }
    destruct (N.eq_dec u 95) as [->|Hu].
    - exists [48%N; x; 95%N]. split; [reflexivity|]. assert (x = 120 \/ x = 88)%N as [->| ->] by lia; cbn; auto 10.
    - exists [48%N; x]. split.
      + destruct u as [|p]; [reflexivity|]. do 7 (destruct p as [p|p|]; try reflexivity). congruence.
      + assert (x = 120 \/ x = 88)%N as [->| ->] by lia; cbn; auto 10. }
  clearbody m3. destruct (int_digits 16 false 0 m3) as [v|] eqn:Ed; [|discriminate].
  assert (digits16 m3 (Z.of_N v)) as Hds.
  { apply (int_digits_sound m3 false 0 v []); [assumption|discriminate|auto]. }
  exists w1, sign, prefix, m3, w2, (Z.of_N v). split; [now rewrite El, Em, Ep, <- !app_assoc|].
  split; [assumption|]. split; [assumption|]. split; [assumption|]. split; [assumption|].
  destruct Hsign as [(Hs & ->)|(Hs & ->)]; injection H as <-; auto.
Qed.

(** ** Size lines *)
Lemma dropZ_last2 (a : bytes) x y : dropZ (lenZ (a ++ [x; y]) - 2) (a ++ [x; y]) = [x; y]
  /\ takeZ (lenZ (a ++ [x; y]) - 2) (a ++ [x; y]) = a.
Proof.
  rewrite lenZ_app. change (lenZ [x; y]) with 2. replace (lenZ a + 2 - 2) with (lenZ a) by lia.
  split; [apply dropZ_app_exact|apply takeZ_app_exact].
Qed.

Lemma chunk_header_size l n : size_line l n -> n <= 2147483648 -> chunk_header l = Some n.
Proof.
  intros (hex & ext & -> & Hh & He & _ & _) Hn. unfold chunk_header. rewrite app_assoc.
  destruct (dropZ_last2 (hex ++ ext) 13 10) as [-> ->].
  replace (leqb [13%N; 10%N] crlf) with true by reflexivity.
  rewrite lenZ_app. change (lenZ [13%N; 10%N]) with 2. pose proof (lenZ_nonneg (hex ++ ext)).
  replace (2 <=? lenZ (hex ++ ext) + 2) with true by lia. cbn [andb].
  pose proof (hex_number_chars _ _ Hh) as [Hf _].
  assert (~ In 59%N hex) as Hno.
  { intros Hi. rewrite Forall_forall in Hf. specialize (Hf _ Hi). now cbn in Hf. }
  assert (Es : match split1 59%N (hex ++ ext) with Some (a, _) => a | None => hex ++ ext end = hex).
  { destruct He as [->|(t & ->)].
    - rewrite app_nil_r. now rewrite (proj2 (split1_None _ _)).
    - rewrite (proj2 (split1_spec _ _ hex t)); auto. }
  rewrite Es, (py_int16_hex _ _ Hh). now replace (n <=? 2147483648) with true by lia.
Qed.

Lemma chunk_header_sound h n : chunk_header h = Some n -> valid_size_line h n.
Proof.
  unfold chunk_header. intros H.
  destruct (leqb (dropZ (lenZ h - 2) h) crlf && (2 <=? lenZ h)) eqn:E; [|discriminate].
  apply andb_prop in E as [E1 E2]. apply leqb_eq in E1.
  set (body := takeZ (lenZ h - 2) h) in *.
  destruct (py_int16 _) as [z|] eqn:Ez; [|discriminate].
  destruct (z <=? 2147483648) eqn:El; [|discriminate]. injection H as <-.
  exists body. eexists. split; [|split; [|split; [apply py_int16_sound; exact Ez|lia]]].
  - rewrite <- (takeZ_dropZ (lenZ h - 2) h). now rewrite E1.
  - destruct (split1 59%N body) as [[a t]|] eqn:Es.
    + apply split1_spec in Es as [Es Hn]. split; [assumption|]. right. eauto.
    + apply split1_None in Es. split; [assumption|]. now left.
Qed.

Lemma no_size_header t : no_size_line t -> chunk_header (head_line t) = None.
Proof.
  intros H. destruct (chunk_header (head_line t)) as [n|] eqn:E; [|reflexivity].
  exfalso. apply (H n). now apply chunk_header_sound.
Qed.

Lemma size_line_take l n x : size_line l n -> takeZ 64 (take_line (l ++ x)) = l /\ 0 < lenZ l.
Proof.
  intros (hex & ext & -> & Hh & _ & Hne & Hl). pose proof (hex_number_chars _ _ Hh) as [Hf _].
  assert (~ In LF (hex ++ ext ++ [13%N])) as Hno.
  { rewrite !in_app_iff. intros [Hi|[Hi|[Hi|[]]]].
    - rewrite Forall_forall in Hf. now specialize (Hf _ Hi).
    - now apply Hne.
    - discriminate. }
  assert (E : take_line ((hex ++ ext ++ [13%N; 10%N]) ++ x) = hex ++ ext ++ [13%N; 10%N]).
  { replace ((hex ++ ext ++ [13%N; 10%N]) ++ x) with ((hex ++ ext ++ [13%N]) ++ LF :: x)
      by (now rewrite <- !app_assoc).
    rewrite take_line_LF by assumption. now rewrite <- !app_assoc. }
  rewrite E. split; [apply takeZ_all; assumption|].
  rewrite !lenZ_app. change (lenZ [13%N;10%N]) with 2.
  pose proof (lenZ_nonneg hex). pose proof (lenZ_nonneg ext). lia.
Qed.

(** [l] is read as a size line saying [n], whatever follows *)
Definition hdr (l : bytes) (n : Z) : Prop :=
  chunk_header l = Some n /\ (forall x, takeZ 64 (take_line (l ++ x)) = l) /\ 0 < lenZ l.

Lemma size_hdr l n : size_line l n -> n <= 2147483648 -> hdr l n.
Proof.
  intros H Hn. split; [now apply chunk_header_size|]. split; [|exact (proj2 (size_line_take _ _ [] H))].
  intros x. exact (proj1 (size_line_take _ _ x H)).
Qed.

(** ** The reader *)
Section Chunked.
  Context {zl : zenv} {S : Type} (ops : sops S) (fuel : nat) (R : S -> bytes -> Prop).
  Notation BR := (breader zl S).
  Context (HX : paired ops R) (HL : short_line ops R)
          (Hfuel : forall s c, R s c -> (List.length c + 3 <= fuel)%nat).

  (** the decoder [dec], given the chunk data [d], puts out [o] and becomes [dec'] *)
  Definition feeds (dec : option (dobj (zS zl))) (d o : bytes) (dec' : option (dobj (zS zl))) : Prop :=
    match dec with
    | None => o = d /\ dec' = None
    | Some x => if is_nil d then o = [] /\ dec' = dec
                else exists x', dobj_decompress zl x d = (Some o, x') /\ dec' = Some x'
    end.

  (** [yields rexc after dec raw out]: with the source at [raw], the reader will put out
      [out] and leave [after] in the source *)
  Inductive yields (rexc : bool) (after : bytes) : option (dobj (zS zl)) -> bytes -> bytes -> Prop :=
  | yg_chunk dec l n d w o dec' out :
      hdr l n -> n <> 0 -> lenZ d = Z.max 0 n -> feeds dec d o dec' ->
      yields rexc after dec' w out -> yields rexc after dec (l ++ d ++ crlf ++ w) (o ++ out)
  | yg_end dec l : hdr l 0 -> yields rexc after dec (l ++ crlf ++ after) []
  | yg_cut dec l n d o dec' : rexc = false -> after = [] ->
      hdr l n -> lenZ d < n -> feeds dec d o dec' ->
      yields rexc after dec (l ++ d) o
  | y_plain t : rexc = false -> after = [] -> no_size_line t -> yields rexc after None t t
  | yg_broken l n d t : rexc = false -> after = [] ->
      hdr l n -> lenZ d = Z.max 0 n -> takeZ 2 t <> crlf ->
      yields rexc after None (l ++ d ++ t) (l ++ d ++ dropZ 2 t).

  Lemma y_chunk rexc after dec l d w o dec' out :
    size_line l (lenZ d) -> d <> [] -> lenZ d <= 2147483648 -> feeds dec d o dec' ->
    yields rexc after dec' w out -> yields rexc after dec (l ++ d ++ crlf ++ w) (o ++ out).
  Proof. clear Hfuel.
    intros Hl Hd Hn Hf Hy. apply lenZ_pos in Hd.
    apply (yg_chunk rexc after dec l (lenZ d) d w o dec' out); [now apply size_hdr|lia|lia|assumption|assumption].
  Qed.
  Lemma y_end rexc after dec l : size_line l 0 -> yields rexc after dec (l ++ crlf ++ after) [].
  Proof. clear Hfuel. intros Hl. apply yg_end. apply size_hdr; [assumption|lia]. Qed.
  Lemma y_cut rexc after dec l n d o dec' : rexc = false -> after = [] ->
    size_line l n -> lenZ d < n -> n <= 2147483648 -> feeds dec d o dec' ->
    yields rexc after dec (l ++ d) o.
  Proof. clear Hfuel. intros. apply (yg_cut rexc after dec l n d o dec'); auto using size_hdr. Qed.
  Lemma y_broken rexc after l d t : rexc = false -> after = [] ->
    size_line l (lenZ d) -> lenZ d <= 2147483648 -> takeZ 2 t <> crlf ->
    yields rexc after None (l ++ d ++ t) (l ++ d ++ dropZ 2 t).
  Proof. clear Hfuel.
    intros. pose proof (lenZ_nonneg d). apply (yg_broken rexc after l (lenZ d) d t); auto using size_hdr. lia.
  Qed.

  Record ck_static (b : BR) : Prop := {
    cs_all : br_all b = false; cs_start : startd b = []; cs_block : 0 < br_block b }.

  Definition CI (rexc : bool) (after : bytes) (b : BR) (content : bytes) : Prop :=
    (List.length content + 3 <= fuel)%nat /\ ck_static b /\
    ((br_ck b = Some (mk_ck false false rexc) /\ exists raw out, R (br_stream b) raw
        /\ yields rexc after (br_dec b) raw out /\ content = buff_data b ++ out)
     \/ (br_ck b = Some (mk_ck true false rexc) /\ R (br_stream b) after /\ content = buff_data b)
     \/ (br_ck b = Some (mk_ck false true rexc) /\ after = [] /\ BI ops fuel R 1 false false [] b content)).

  Lemma process_feeds (b : BR) d o dec' : feeds (br_dec b) d o dec' ->
    let b' := process_read d b in
    br_dec b' = dec' /\ buff_data b' = o /\ br_all b' = br_all b /\ startd b' = startd b
    /\ br_block b' = br_block b /\ br_ck b' = br_ck b /\ br_stream b' = br_stream b.
  Proof.
    intros H. cbv zeta. unfold process_read, feeds in *. destruct (is_nil d) eqn:En.
    - apply is_nil_true in En. subst d. destruct (br_dec b) as [x|] eqn:Ed; destruct H as [-> ->];
        (split; [exact Ed|repeat split]).
    - unfold decompress. destruct (br_dec b) as [x|] eqn:Ed.
      + rewrite En. destruct H as (x' & -> & ->). repeat split.
      + destruct H as [-> ->]. split; [exact Ed|repeat split].
  Qed.

  Lemma chunk_read_acc n : forall rexc size d w acc s, (List.length d < n)%nat -> R s (d ++ w) ->
    lenZ acc + lenZ d = Z.max (lenZ acc) size ->
    exists s', chunk_loop ops n rexc size acc s = (Ok (acc ++ d, false), s') /\ R s' w.
  Proof. clear Hfuel.
    induction n as [|n IH]; intros rexc size d w acc s Hn HR Hd; [lia|]. cbn [chunk_loop].
    pose proof (lenZ_nonneg d). destruct (Z_lt_le_dec (lenZ acc) size) as [Hs|Hs].
    2:{ replace (lenZ acc <? size) with false by lia. assert (d = []) as -> by (apply lenZ_0; lia). rewrite app_nil_r. eauto. }
    replace (lenZ acc <? size) with true by lia.
    destruct (proj1 HX _ _ (size - lenZ acc) HR ltac:(lia)) as (out & rest & s' & -> & HR' & E & Hlen & Hne).
    assert (exists d2, d = out ++ d2 /\ rest = d2 ++ w) as (d2 & -> & ->).
    { exists (dropZ (lenZ out) d). assert (Ho : lenZ out <= lenZ d) by lia.
      assert (E1 : out = takeZ (lenZ out) d) by (rewrite <- (takeZ_app_le _ d w Ho), E; now rewrite takeZ_app_exact).
      split; [rewrite E1 at 1; now rewrite takeZ_dropZ|]. rewrite <- (dropZ_app_le _ d w Ho), E. now rewrite dropZ_app_exact. }
    destruct out as [|x out].
    { exfalso. specialize (Hne eq_refl). destruct d2; [rewrite lenZ_nil in *; cbn [app] in *; rewrite lenZ_nil in *; lia|discriminate]. }
    destruct (IH rexc size d2 w (acc ++ x :: out) s') as (s'' & -> & HR'').
    { rewrite app_length in Hn. cbn [List.length] in Hn. lia. }
    { exact HR'. }
    { rewrite !lenZ_app in *. pose proof (lenZ_nonneg d2). pose proof (lenZ_nonneg (x :: out)). lia. }
    exists s''. rewrite <- app_assoc. auto.
  Qed.

  Lemma chunk_cut_acc n : forall rexc size d acc s, (List.length d + 1 < n)%nat -> R s d -> lenZ acc + lenZ d < size ->
    exists s', chunk_loop ops n rexc size acc s = ((if rexc then Err (ChunkedExn (acc ++ d)) else Ok (acc ++ d, true)), s') /\ R s' [].
  Proof. clear Hfuel.
    induction n as [|n IH]; intros rexc size d acc s Hn HR Hd; [lia|]. cbn [chunk_loop].
    pose proof (lenZ_nonneg d). replace (lenZ acc <? size) with true by lia.
    destruct (proj1 HX _ _ (size - lenZ acc) HR ltac:(lia)) as (out & rest & s' & -> & HR' & -> & Hlen & Hne).
    destruct out as [|x out].
    { specialize (Hne eq_refl). cbn [app] in Hne. subst rest. rewrite app_nil_r. destruct rexc; eauto. }
    destruct (IH rexc size rest (acc ++ x :: out) s') as (s'' & -> & HR'').
    { rewrite app_length in Hn. cbn [List.length] in Hn. lia. }
    { exact HR'. }
    { rewrite !lenZ_app in *. lia. }
    exists s''. rewrite <- app_assoc. auto.
  Qed.

  Lemma chunk_read rexc size d w s : R s (d ++ w) -> lenZ d = Z.max 0 size ->
    exists s', chunk_loop ops fuel rexc size [] s = (Ok (d, false), s') /\ R s' w.
  Proof.
    intros HR Hd. pose proof (Hfuel _ _ HR) as X. rewrite app_length in X.
    apply (chunk_read_acc fuel rexc size d w []); [lia|exact HR|rewrite lenZ_nil; lia].
  Qed.
  Lemma chunk_cut rexc size d s : R s d -> lenZ d < size ->
    exists s', chunk_loop ops fuel rexc size [] s = ((if rexc then Err (ChunkedExn d) else Ok (d, true)), s') /\ R s' [].
  Proof.
    intros HR Hd. pose proof (Hfuel _ _ HR) as X.
    apply (chunk_cut_acc fuel rexc size d []); [lia|exact HR|rewrite lenZ_nil; lia].
  Qed.

  Lemma size_read s l n x : R s (l ++ x) -> hdr l n ->
    exists s', o_readline ops (Some 64) s = (Ok l, s') /\ R s' x.
  Proof.
    intros HR Hs. destruct (HL _ _ 64 HR ltac:(lia)) as (s' & E & HR').
    destruct Hs as (_ & Et & _). rewrite (Et x) in *. rewrite dropZ_app_exact in HR'. eauto.
  Qed.

  Lemma two_read s x : R s x -> exists s', o_read ops (Some 2) s = (Ok (takeZ 2 x), s') /\ R s' (dropZ 2 x).
  Proof. clear Hfuel. intros HR. apply (proj2 HX _ _ HR). Qed.

  Lemma process_ck (b : BR) d : br_ck (process_read d b) = br_ck b.
  Proof.
    unfold process_read, decompress. destruct (is_nil d) eqn:E; [reflexivity|].
    destruct (br_dec b) as [x|]; [|reflexivity].
    destruct (dobj_decompress zl x d) as [[o|] x']; [reflexivity|].
    destruct (br_nblk b =? 0); [|reflexivity].
    destruct (br_dtype b) as [[]|]; try reflexivity.
    destruct (dobj_decompress zl _ d) as [[o|] x'']; reflexivity.
  Qed.

  Lemma fill_loop_ck n : forall d (b : BR), br_ck (snd (fill_loop ops n d b)) = br_ck b.
  Proof.
    induction n as [|n IH]; intros d b; [reflexivity|]. cbn [fill_loop].
    destruct (fill_cond d b); [|reflexivity]. destruct (o_read ops _ _) as [[d'|e] s']; [|reflexivity].
    rewrite IH, process_ck. reflexivity.
  Qed.

  Lemma fill_base_ck (b : BR) : br_ck (snd (fill_base ops fuel b)) = br_ck b.
  Proof.
    unfold fill_base, br_empty, read_next_member.
    assert (H : forall b1 : BR, br_ck b1 = br_ck b ->
       br_ck (snd (if 0 <? rem_length b1 then (Ok tt, b1) else
         match br_start b1 with
         | Some ((_ :: _) as d) => fill_loop ops fuel d (process_read d (set_start None b1))
         | _ => match o_read ops (Some (br_block b1)) (br_stream b1) with
                | (Ok d, s') => fill_loop ops fuel d (process_read d (set_stream s' b1))
                | (Err e, s') => (Err e, set_stream s' b1)
                end
         end)) = br_ck b).
    { intros b1 E1. destruct (0 <? rem_length b1); [exact E1|].
      destruct (br_start b1) as [[|x t]|].
      2:{ rewrite fill_loop_ck, process_ck. exact E1. }
      all: destruct (o_read ops _ _) as [[d'|e] s']; [rewrite fill_loop_ck, process_ck|]; exact E1. }
    destruct (buff_empty b); [|reflexivity].
    cbn [negb]. destruct (br_all b); [|now apply H].
    destruct (br_dec b) as [[zs|[|u0 u]|]|]; cbn [snd]; apply H; reflexivity.
  Qed.

  (** into plain mode *)
  Lemma enter_plain rexc (b : BR) (x rest : bytes) :
    R (br_stream b) rest -> ck_static b -> br_dec b = None ->
    br_ck b = Some (mk_ck false false rexc) -> (List.length (x ++ rest) + 3 <= fuel)%nat ->
    let b1 := set_not true (process_read x b) in
    BI ops fuel R 1 false false [] b1 (x ++ rest) /\ br_ck b1 = Some (mk_ck false true rexc).
  Proof.
    intros HR [Ha Hs Hb] Hd Hck Hf. cbv zeta.
    destruct (process_feeds b x x None) as (E1 & E2 & E3 & E4 & E5 & E6 & E7).
    { unfold feeds. rewrite Hd. auto. }
    set (b1 := process_read x b) in *.
    assert (Eck : br_ck (set_not true b1) = Some (mk_ck false true rexc)).
    { unfold set_not. rewrite E6, Hck. reflexivity. }
    split; [|exact Eck].
    exists rest, rest. split; [change (br_stream (set_not true b1)) with (br_stream b1); now rewrite E7|].
    split.
    { left. unfold steady. change (br_dec (set_not true b1)) with (br_dec b1). rewrite E1.
      change (startd (set_not true b1)) with (startd b1). rewrite E4, Hs. auto. }
    split; [change (buff_data (set_not true b1)) with (buff_data b1); now rewrite E2|].
    split; [split|].
    - change (br_all (set_not true b1)) with (br_all b1). congruence.
    - unfold base_mode. now rewrite Eck.
    - change (br_block (set_not true b1)) with (br_block b1). congruence.
    - split; [intros _; change (startd (set_not true b1)) with (startd b1); congruence|].
      split; [discriminate|]. split; [exact Hf|]. split; [apply Z.le_refl|]. left. cbn. lia.
  Qed.

  (** the fallback to plain mode *)
  Lemma plain_rest rexc (b : BR) (x rest : bytes) :
    R (br_stream b) rest -> ck_static b -> br_dec b = None ->
    br_ck b = Some (mk_ck false false rexc) -> (List.length (x ++ rest) + 3 <= fuel)%nat ->
    exists b', fill_base ops fuel (set_not true (process_read x b)) = (Ok tt, b')
               /\ CI rexc [] b' (x ++ rest)
               /\ (buff_data b' = [] -> x ++ rest = [])
               /\ (buff_data b' = [] -> R (br_stream b') []).
  Proof.
    intros HR Hst Hd Hck Hf.
    destruct (enter_plain rexc b x rest HR Hst Hd Hck Hf) as [HB Eck1].
    set (b2 := set_not true _) in *.
    destruct (BI_fill ops fuel R (proj1 HX) Hfuel _ _ _ _ _ _ HB) as (b3 & Ef & HB3 & Hs3 & He & _).
    assert (Efb : fill_base ops fuel b2 = fillbuff ops fuel b2).
    { unfold fillbuff. rewrite Eck1. reflexivity. }
    assert (Eck3 : br_ck b3 = br_ck b2).
    { pose proof (fill_base_ck b2) as Eb2. rewrite Efb, Ef in Eb2. exact Eb2. }
    rewrite Efb, Ef. exists b3. split; [reflexivity|]. split.
    { split; [exact Hf|]. split; [|right; right; split; [rewrite Eck3; exact Eck1|split; [reflexivity|exact HB3]]].
      destruct HB3 as (? & ? & _ & _ & _ & [Ha3 _ Hb3] & _). split; assumption. }
    split.
    + intros E3. apply buff_empty_data in E3. now destruct (He E3).
    + intros E3. apply buff_empty_data in E3. destruct (He E3) as (_ & c' & Hc' & Ea & Hu).
      symmetry in Ea. apply app_eq_nil in Ea as [Eu _]. now rewrite (Hu Eu) in Hc'.
  Qed.

  (** _fillbuff in chunk mode *)
  Lemma chunk_fill_ok rexc after n : forall b raw out,
    (List.length raw < n)%nat -> ck_static b -> br_ck b = Some (mk_ck false false rexc) ->
    R (br_stream b) raw -> yields rexc after (br_dec b) raw out ->
    (List.length (buff_data b ++ out) + 3 <= fuel)%nat ->
    exists b', chunk_fill ops fuel n b = (Ok tt, b') /\ CI rexc after b' (buff_data b ++ out)
               /\ (buff_data b' = [] -> buff_data b ++ out = [])
               /\ (buff_data b' = [] -> R (br_stream b') after).
  Proof.
    induction n as [|n IH]; intros b raw out Hn Hst Hck HR Hy Hf; [lia|].
    cbn [chunk_fill]. pose proof Hst as [Hall Hs0 Hblk].
    assert (br_empty b = (buff_empty b, b)) as ->.
    { unfold br_empty. rewrite Hall. destruct (buff_empty b); reflexivity. }
    unfold ck_alld, ck_notd. rewrite Hck. cbn [ck_all ck_not negb]. rewrite !andb_true_r.
    destruct (buff_empty b) eqn:Eb.
    2:{ apply buff_nonempty_data in Eb. exists b. split; [reflexivity|].
        split; [split; [assumption|]; split; [assumption|]; left; split; [assumption|]; eauto|].
        split; contradiction. }
    apply buff_empty_data in Eb. rewrite Eb in *. cbn [app] in *.
    pose proof (Hfuel _ _ HR) as Hfr.
    inversion Hy as [dec l m d w o dec' out' Hsl Hm0 Hdm Hfd Hy' Edec Eraw Eout
                    |dec l Hsl Edec Eraw Eout
                    |dec l m d o dec' Hrx Haf Hsl Hdm Hfd Edec Eraw Eout
                    |t Hrx Haf Hns Edec Eraw Eout
                    |l m d t Hrx Haf Hsl Hdm Hc Edec Eraw Eout]; subst; clear Hy.
    - (* a complete chunk *)
      destruct (size_read _ _ _ _ HR Hsl) as (s1 & -> & HR1).
      unfold try_decode. rewrite (proj1 Hsl). replace (m =? 0) with false by lia. cbn [br_stream set_stream].
      destruct (chunk_read (ck_raises (set_stream s1 b)) m d (crlf ++ w) s1 HR1 Hdm) as (s2 & -> & HR2).
      destruct (two_read _ _ HR2) as (s3 & -> & HR3).
      change 2 with (lenZ crlf) in HR3. rewrite dropZ_app_exact in HR3.
      change (takeZ 2 (crlf ++ w)) with (takeZ (lenZ crlf) (crlf ++ w)). rewrite takeZ_app_exact.
      rewrite leqb_refl. cbn [set_stream].
      set (b3 := set_stream s3 (set_stream s1 b)).
      destruct (process_feeds b3 d o dec' Hfd) as (E1 & E2 & E3 & E4 & E5 & E6 & E7).
      set (b4 := process_read d b3) in *.
      assert (Hlw : (List.length w < n)%nat).
      { rewrite !app_length in Hn. destruct Hsl as (_ & _ & Hp). unfold lenZ in Hp. lia. }
      assert (Eo : buff_data b4 ++ out' = o ++ out') by now rewrite E2.
      edestruct (IH b4 w out') as (b' & Ef & HC & Hend & Hra).
      + exact Hlw.
      + split; [rewrite E3; exact Hall|rewrite E4; exact Hs0|rewrite E5; exact Hblk].
      + rewrite E6. exact Hck.
      + rewrite E7. exact HR3.
      + rewrite E1. exact Hy'.
      + rewrite Eo. exact Hf.
      + exists b'. rewrite Ef. rewrite Eo in *. auto.
    - (* the last chunk *)
      destruct (size_read _ _ _ _ HR Hsl) as (s1 & -> & HR1).
      unfold try_decode. rewrite (proj1 Hsl). rewrite Z.eqb_refl. cbn [br_stream set_stream].
      destruct (two_read _ _ HR1) as (s3 & -> & HR3).
      change 2 with (lenZ crlf) in HR3. rewrite dropZ_app_exact in HR3.
      change (takeZ 2 (crlf ++ after)) with (takeZ (lenZ crlf) (crlf ++ after)). rewrite takeZ_app_exact.
      rewrite leqb_refl.
      set (b4 := process_read [] _).
      assert (Eck : br_ck b4 = Some (mk_ck true false rexc)).
      { unfold b4, process_read. cbn [is_nil]. unfold set_bbuff, set_all. cbn. now rewrite Hck. }
      assert (Estep : chunk_fill ops fuel n b4 = (Ok tt, b4)).
      { destruct n as [|n']; [rewrite !app_length in Hn; destruct Hsl as (_ & _ & Hp); unfold lenZ in Hp; lia|].
        cbn [chunk_fill]. assert (br_empty b4 = (true, b4)) as ->.
        { unfold br_empty. replace (buff_empty b4) with true by reflexivity.
          change (br_all b4) with (br_all b). now rewrite Hall. }
        unfold ck_alld. rewrite Eck. reflexivity. }
      exists b4. split; [exact Estep|]. split.
      { split; [exact Hf|]. split; [split; [exact Hall|exact Hs0|exact Hblk]|]. right. left.
        split; [exact Eck|]. split; [exact HR3|reflexivity]. }
      split; [reflexivity|]. intros _. exact HR3.
    - (* the data is cut *)
      destruct (size_read _ _ _ _ HR Hsl) as (s1 & -> & HR1).
      unfold try_decode. rewrite (proj1 Hsl). pose proof (lenZ_nonneg d).
      replace (m =? 0) with false by lia. cbn [br_stream set_stream].
      assert (ck_raises (set_stream s1 b) = false) as ->.
      { unfold ck_raises. cbn. now rewrite Hck. }
      destruct (chunk_cut false m d s1 HR1 Hdm) as (s2 & -> & HR2).
      set (b3 := set_all true (set_stream s2 (set_stream s1 b))).
      destruct (process_feeds b3 d out dec' Hfd) as (E1 & E2 & E3 & E4 & E5 & E6 & E7).
      set (b4 := process_read d b3) in *.
      assert (Eck : br_ck b4 = Some (mk_ck true false false)).
      { rewrite E6. unfold b3, set_all. cbn. now rewrite Hck. }
      assert (Hb4 : br_all b4 = false) by (rewrite E3; exact Hall).
      assert (Estep : chunk_fill ops fuel n b4 = (Ok tt, b4)).
      { destruct n as [|n']; [rewrite !app_length in Hn; destruct Hsl as (_ & _ & Hp); unfold lenZ in Hp; lia|].
        cbn [chunk_fill]. assert (br_empty b4 = (buff_empty b4, b4)) as ->.
        { unfold br_empty. rewrite Hb4. destruct (buff_empty b4); reflexivity. }
        unfold ck_alld. rewrite Eck. cbn [ck_all negb]. rewrite andb_false_r. reflexivity. }
      exists b4. split; [exact Estep|]. split.
      { split; [exact Hf|]. split; [split; [exact Hb4|rewrite E4; exact Hs0|rewrite E5; exact Hblk]|]. right. left.
        split; [exact Eck|]. split; [rewrite E7; exact HR2|now rewrite E2]. }
      split; [rewrite E2; auto|]. intros _. rewrite E7. exact HR2.
    - (* not chunked *)
      destruct (HL _ _ 64 HR ltac:(lia)) as (s1 & -> & HR1). fold (head_line out) in *.
      unfold try_decode. rewrite (no_size_header _ Hns). unfold ck_raises. cbn [br_ck set_stream]. rewrite Hck.
      cbn [ck_raise]. rewrite app_nil_r.
      assert (Eout : head_line out ++ dropZ (lenZ (head_line out)) out = out).
      { exact (line_of_split (Some 64) out). }
      assert (Hp := plain_rest false (set_stream s1 b) (head_line out) _ HR1).
      rewrite Eout in Hp. apply Hp; [split; [exact Hall|exact Hs0|exact Hblk]|exact (eq_sym Edec)|exact Hck|exact Hf].
    - (* broken framing *)
      destruct (size_read _ _ _ _ HR Hsl) as (s1 & -> & HR1).
      unfold try_decode. rewrite (proj1 Hsl). cbn [br_stream set_stream].
      destruct (m =? 0) eqn:Ed0.
      + assert (d = []) as -> by (apply lenZ_0; lia). cbn [app] in *.
        destruct (two_read _ _ HR1) as (s3 & -> & HR3).
        rewrite (proj2 (leqb_neq _ _) Hc). unfold ck_raises. cbn [br_ck set_stream]. rewrite Hck.
        cbn [ck_raise]. rewrite app_nil_r.
        apply (plain_rest false (set_stream s3 (set_stream s1 b)) l _ HR3);
          [split; [exact Hall|exact Hs0|exact Hblk]|exact (eq_sym Edec)|exact Hck|exact Hf].
      + destruct (chunk_read (ck_raises (set_stream s1 b)) m d t s1 HR1 Hdm) as (s2 & -> & HR2).
        destruct (two_read _ _ HR2) as (s3 & -> & HR3).
        rewrite (proj2 (leqb_neq _ _) Hc). unfold ck_raises. cbn [br_ck set_stream]. rewrite Hck.
        cbn [ck_raise]. rewrite app_assoc in Hf |- *.
        apply (plain_rest false (set_stream s3 (set_stream s1 b)) (l ++ d) _ HR3);
          [split; [exact Hall|exact Hs0|exact Hblk]|exact (eq_sym Edec)|exact Hck|exact Hf].
  Qed.

  Lemma CI_fill rexc after b c : CI rexc after b c ->
    exists b', fillbuff ops fuel b = (Ok tt, b') /\ CI rexc after b' c /\ startd b' = []
               /\ (buff_data b' = [] -> c = []) /\ (buff_data b' = [] -> R (br_stream b') after).
  Proof.
    intros (Hf & Hst & [(Hck & raw & out & HR & Hy & ->)|[(Hck & HR & ->)|(Hck & -> & HB)]]).
    - unfold fillbuff. rewrite Hck. cbn [ck_not].
      destruct (chunk_fill_ok rexc after fuel b raw out) as (b' & E & HC & He & Ha); try assumption.
      + pose proof (Hfuel _ _ HR). lia.
      + exists b'. split; [assumption|]. split; [assumption|]. split; [apply HC|]. auto.
    - unfold fillbuff. rewrite Hck. cbn [ck_not].
      assert (chunk_fill ops fuel fuel b = (Ok tt, b)) as ->.
      { pose proof (Hfuel _ _ HR) as Hn. set (n := fuel) in *. rewrite <- (Nat.succ_pred n) by lia.
        cbn [chunk_fill]. assert (br_empty b = (buff_empty b, b)) as ->.
        { unfold br_empty. rewrite (cs_all _ Hst). destruct (buff_empty b); reflexivity. }
        unfold ck_alld. rewrite Hck. cbn [ck_all negb]. rewrite andb_false_r. reflexivity. }
      exists b. split; [reflexivity|]. split; [|split; [apply Hst|auto]].
      split; [assumption|]. split; [assumption|]. right. left. auto.
    - destruct (BI_fill ops fuel R (proj1 HX) Hfuel _ _ _ _ _ _ HB) as (b3 & Ef & HB3 & Hs3 & He & _).
      assert (Efb : fillbuff ops fuel b = fill_base ops fuel b).
      { unfold fillbuff. rewrite Hck. reflexivity. }
      assert (Eck3 : br_ck b3 = br_ck b).
      { pose proof (fill_base_ck b) as Eb2. rewrite <- Efb, Ef in Eb2. exact Eb2. }
      exists b3. split; [exact Ef|]. split.
      { split; [exact Hf|]. split; [|right; right; split; [rewrite Eck3; exact Hck|split; [reflexivity|exact HB3]]].
        destruct HB3 as (? & ? & _ & _ & _ & [Ha3 _ Hb3] & _). split; assumption. }
      split; [assumption|]. split.
      + intros E3. apply buff_empty_data in E3. now destruct (He E3).
      + intros E3. apply buff_empty_data in E3. destruct (He E3) as (_ & c' & Hc' & Ea & Hu).
        symmetry in Ea. apply app_eq_nil in Ea as [Eu _]. now rewrite (Hu Eu) in Hc'.
  Qed.

  Lemma CI_fill_ok rexc after : fill_ok ops fuel 1 (CI rexc after).
  Proof.
    split.
    - intros b c HC. destruct (CI_fill _ _ _ _ HC) as (b' & E & HC' & Hs & He & _).
      exists b'. split; [exact E|]. split; [exact HC'|]. split; [exact Hs|].
      split; [intros H; apply He, buff_empty_data, H|]. intros _ _.
      destruct (buff_data b') as [|x t] eqn:Eb.
      + rewrite (He eq_refl). cbn. lia.
      + rewrite lenZ_cons. pose proof (lenZ_nonneg t). cbn [rM rL rl0]. lia.
    - intros b c (_ & _ & [(_ & raw & out & _ & _ & ->)|[(_ & _ & ->)|(_ & _ & HB)]]).
      + eauto.
      + exists []. now rewrite app_nil_r.
      + destruct HB as (? & ? & _ & _ & -> & _). eauto.
    - intros b c n (Hf & Hst & Hc) Hn.
      assert (Hl : (List.length (dropZ n c) + 3 <= fuel)%nat).
      { assert (lenZ (dropZ n c) <= lenZ c) by (rewrite lenZ_dropZ by lia; pose proof (lenZ_nonneg c); lia).
        unfold lenZ in *. lia. }
      split; [exact Hl|]. split; [destruct Hst; split; assumption|].
      destruct Hc as [(Hck & raw & out & HR & Hy & ->)|[(Hck & HR & ->)|(Hck & Ha & HB)]].
      + left. split; [exact Hck|]. exists raw, out. split; [exact HR|]. split; [exact Hy|].
        now rewrite dropZ_app_le by lia.
      + right. left. split; [exact Hck|]. split; [exact HR|reflexivity].
      + right. right. split; [exact Hck|]. split; [exact Ha|].
        apply (BI_take ops fuel R Hfuel); assumption.
    - intros b c (_ & Hst & _). unfold br_empty. rewrite (cs_all _ Hst). destruct (buff_empty b); reflexivity.
    - intros b c (Hf & _). exact Hf.
  Qed.

  (** the source after reading everything *)
  Lemma CI_read_end rexc after n : forall len acc b c, CI rexc after b c ->
    nonneg len -> (match len with Some k => lenZ c < k | None => True end) -> (List.length c + 2 <= n)%nat ->
    exists b', read_loop ops fuel n len acc b = (Ok (acc ++ c), b') /\ CI rexc after b' []
               /\ R (br_stream b') after.
  Proof.
    pose proof (CI_fill_ok rexc after) as FO.
    induction n as [|n IH]; intros len acc b c HI Hl Hk Hn; [lia|].
    cbn [read_loop].
    assert (match len with None => true | Some k => 0 <? k end = true) as ->.
    { destruct len as [k|]; [|reflexivity]. pose proof (lenZ_nonneg c). lia. }
    destruct (CI_fill _ _ _ _ HI) as (b1 & Ef & HI1 & Hs & He & Ha).
    rewrite Ef, (fo_empty _ _ _ _ FO _ _ HI1). destruct (buff_empty b1) eqn:Eb.
    - apply buff_empty_data in Eb. rewrite (He Eb) in *. exists b1. rewrite app_nil_r. auto.
    - destruct (fo_buff _ _ _ _ FO _ _ HI1) as (rest & Ec). apply buff_nonempty_data in Eb.
      assert (read_of len (buff_data b1) = buff_data b1) as Er.
      { unfold read_of. destruct len as [k|]; [|reflexivity]. cbn in Hl. replace (k <? 0) with false by lia.
        apply takeZ_all. rewrite Ec, lenZ_app in Hk. pose proof (lenZ_nonneg rest). lia. }
      rewrite Er. pose proof (lenZ_pos _ Eb) as Hpos.
      pose proof (fo_take _ _ _ _ FO b1 c (lenZ (buff_data b1)) HI1 ltac:(lia)) as HI2.
      replace (dropZ (lenZ (buff_data b1)) c) with rest in HI2 by (rewrite Ec; symmetry; apply dropZ_app_exact).
      edestruct (IH (match len with Some k => Some (k - lenZ (buff_data b1)) | None => None end) (acc ++ buff_data b1) _ _ HI2)
        as (b' & E & HI' & Hend).
      + destruct len as [k|]; [|exact Logic.I]. cbn. rewrite Ec, lenZ_app in Hk. pose proof (lenZ_nonneg rest). lia.
      + destruct len as [k|]; [|exact Logic.I]. rewrite Ec, lenZ_app in Hk. lia.
      + rewrite Ec, app_length in Hn. unfold lenZ in Hpos. lia.
      + exists b'. rewrite E. rewrite Ec, app_assoc. auto.
  Qed.

  Lemma CI_new rexc after s raw out block t : R s raw -> 0 < block ->
    yields rexc after (match t with Some x => Some (DActive (zinit zl x)) | None => None end) raw out ->
    (List.length out + 3 <= fuel)%nat ->
    CI rexc after (ckr_new s block t rexc) out.
  Proof.
    intros HR Hb Hy Hf. split; [exact Hf|]. split; [split; [reflexivity|reflexivity|exact Hb]|].
    left. split; [reflexivity|]. exists raw, out. auto.
  Qed.

  (** nothing of [after] is consumed, at any time *)
  Lemma yields_after rexc after dec raw out : yields rexc after dec raw out -> exists y, raw = y ++ after.
  Proof.
    induction 1 as [dec l m d w o dec' out Hsl Hm0 Hdm Hfd Hy (y & ->)|dec l Hsl|dec l m d o dec' Hrx -> Hsl Hdm Hfd|t Hrx -> Hns|l m d t Hrx -> Hsl Hdm Hc].
    - exists (l ++ d ++ crlf ++ y). now rewrite <- !app_assoc.
    - exists (l ++ crlf). now rewrite <- app_assoc.
    - eexists. symmetry. apply app_nil_r.
    - eexists. symmetry. apply app_nil_r.
    - eexists. symmetry. apply app_nil_r.
  Qed.

  Lemma CI_after rexc after b c : CI rexc after b c -> exists y, R (br_stream b) (y ++ after).
  Proof.
    intros (_ & _ & [(_ & raw & out & HR & Hy & _)|[(_ & HR & _)|(_ & -> & HB)]]).
    - destruct (yields_after _ _ _ _ _ Hy) as (y & ->). eauto.
    - exists []. exact HR.
    - destruct HB as (c' & _ & HR & _). exists c'. now rewrite app_nil_r.
  Qed.

  (** ** Bodies *)
  Lemma yields_chunks rexc after w p : chunks w p -> forall raw out,
    yields rexc after None raw out -> yields rexc after None (w ++ raw) (p ++ out).
  Proof. clear Hfuel.
    induction 1 as [|l d w p Hsl Hd Hdl Hc IH]; intros raw out Hy; [exact Hy|].
    rewrite <- !app_assoc. change [13%N; 10%N] with crlf.
    apply (y_chunk rexc after None l d (w ++ raw) d None (p ++ out)); auto. split; reflexivity.
  Qed.

  (** compressed data in the chunks *)
  Lemma yields_zchunks rexc after w p : chunks w p -> forall raw,
    (forall dec, yields rexc after dec raw []) -> forall dec out,
    match dec with
    | DActive zs => exists fin, zfeed zl zs p = Some (out, fin)
    | DDone _ => out = []
    | DBad => False
    end ->
    yields rexc after (Some dec) (w ++ raw) out.
  Proof. clear Hfuel.
    induction 1 as [|l d w p Hsl Hd Hdl Hc IH]; intros raw Hraw dec out Hdec.
    - assert (out = []) as ->; [|apply Hraw].
      destruct dec as [zs|u|]; [|assumption|contradiction]. destruct Hdec as (fin & E). cbn in E. now injection E as <- _.
    - rewrite <- !app_assoc. change [13%N; 10%N] with crlf.
      assert (En : is_nil d = false) by (now apply is_nil_false).
      destruct dec as [zs|u|]; [| |contradiction].
      + destruct Hdec as (fin & E).
        destruct (zfeed_app zl _ _ _ _ _ E) as [(u & E1 & ->)|(o & zs' & p' & E1 & E2 & ->)].
        * rewrite <- (app_nil_r out).
          apply (y_chunk rexc after _ l d (w ++ raw) out (Some (DDone u)) []); auto.
          -- unfold feeds. rewrite En. exists (DDone u). cbn. now rewrite E1.
        * apply (y_chunk rexc after _ l d (w ++ raw) o (Some (DActive zs')) p'); auto.
          -- unfold feeds. rewrite En. exists (DActive zs'). cbn. now rewrite E1.
          -- apply IH; eauto.
      + subst out. apply (y_chunk rexc after _ l d (w ++ raw) [] (Some (DDone (u ++ d))) []); auto.
        * unfold feeds. rewrite En. exists (DDone (u ++ d)). auto.
  Qed.

  Lemma yields_body rexc after w p : chunked_body w p -> yields rexc after None (w ++ after) p.
  Proof. clear Hfuel.
    intros (w1 & l & -> & Hc & Hs). rewrite <- !app_assoc. rewrite <- (app_nil_r p).
    apply yields_chunks; [assumption|]. now apply (y_end rexc after None l).
  Qed.

  Lemma yields_zbody rexc after w p t out fin : chunked_body w p ->
    zfeed zl (zinit zl t) p = Some (out, fin) ->
    yields rexc after (Some (DActive (zinit zl t))) (w ++ after) out.
  Proof. clear Hfuel.
    intros (w1 & l & -> & Hc & Hs) Hz. rewrite <- !app_assoc.
    apply (yields_zchunks rexc after w1 p Hc (l ++ [13%N; 10%N] ++ after)); [|eauto].
    intros dec. now apply (y_end rexc after dec l).
  Qed.

  (** ** raise_exceptions=True *)
  Inductive fails : option (dobj (zS zl)) -> bytes -> bytes -> Prop :=
  | fg_chunk dec l n d w o dec' out :
      hdr l n -> n <> 0 -> lenZ d = Z.max 0 n -> feeds dec d o dec' ->
      fails dec' w out -> fails dec (l ++ d ++ crlf ++ w) (o ++ out)
  | fg_cut dec l n d : hdr l n -> lenZ d < n -> fails dec (l ++ d) []
  | f_plain dec t : no_size_line t -> fails dec t []
  | fg_broken dec l n d t : hdr l n -> lenZ d = Z.max 0 n -> takeZ 2 t <> crlf ->
      fails dec (l ++ d ++ t) [].

  Lemma f_chunk dec l d w o dec' out :
    size_line l (lenZ d) -> d <> [] -> lenZ d <= 2147483648 -> feeds dec d o dec' ->
    fails dec' w out -> fails dec (l ++ d ++ crlf ++ w) (o ++ out).
  Proof. clear Hfuel.
    intros Hl Hd Hn Hf Hy. apply lenZ_pos in Hd.
    apply (fg_chunk dec l (lenZ d) d w o dec' out); [now apply size_hdr|lia|lia|assumption|assumption].
  Qed.
  Lemma f_cut dec l n d : size_line l n -> lenZ d < n -> n <= 2147483648 -> fails dec (l ++ d) [].
  Proof. clear Hfuel. intros. apply (fg_cut dec l n d); auto using size_hdr. Qed.
  Lemma f_broken dec l d t : size_line l (lenZ d) -> lenZ d <= 2147483648 -> takeZ 2 t <> crlf ->
    fails dec (l ++ d ++ t) [].
  Proof. clear Hfuel. intros. pose proof (lenZ_nonneg d). apply (fg_broken dec l (lenZ d) d t); auto using size_hdr. lia. Qed.

  Definition CE (b : BR) (content : bytes) : Prop :=
    (List.length content + 3 <= fuel)%nat /\ ck_static b /\ br_ck b = Some (mk_ck false false true)
    /\ exists raw out, R (br_stream b) raw /\ fails (br_dec b) raw out /\ content = buff_data b ++ out.

  Lemma chunk_fill_err n : forall b raw out,
    (List.length raw < n)%nat -> ck_static b -> br_ck b = Some (mk_ck false false true) ->
    R (br_stream b) raw -> fails (br_dec b) raw out ->
    (List.length (buff_data b ++ out) + 3 <= fuel)%nat ->
    (exists b', chunk_fill ops fuel n b = (Ok tt, b') /\ CE b' (buff_data b ++ out) /\ buff_data b' <> [])
    \/ (buff_data b ++ out = [] /\ exists x b', chunk_fill ops fuel n b = (Err (ChunkedExn x), b')).
  Proof.
    induction n as [|n IH]; intros b raw out Hn Hst Hck HR Hy Hf; [lia|].
    cbn [chunk_fill]. pose proof Hst as [Hall Hs0 Hblk].
    assert (br_empty b = (buff_empty b, b)) as ->.
    { unfold br_empty. rewrite Hall. destruct (buff_empty b); reflexivity. }
    unfold ck_alld, ck_notd. rewrite Hck. cbn [ck_all ck_not negb]. rewrite !andb_true_r.
    destruct (buff_empty b) eqn:Eb.
    2:{ apply buff_nonempty_data in Eb. left. exists b. split; [reflexivity|]. split; [|exact Eb].
        split; [assumption|]. split; [assumption|]. split; [assumption|]. eauto. }
    apply buff_empty_data in Eb. rewrite Eb in *. cbn [app] in *.
    pose proof (Hfuel _ _ HR) as Hfr.
    inversion Hy as [dec l m d w o dec' out' Hsl Hm0 Hdm Hfd Hy' Edec Eraw Eout
                    |dec l m d Hsl Hdm Edec Eraw Eout
                    |dec t Hns Edec Eraw Eout
                    |dec l m d t Hsl Hdm Hc Edec Eraw Eout]; subst; clear Hy.
    - destruct (size_read _ _ _ _ HR Hsl) as (s1 & -> & HR1).
      unfold try_decode. rewrite (proj1 Hsl). replace (m =? 0) with false by lia. cbn [br_stream set_stream].
      destruct (chunk_read (ck_raises (set_stream s1 b)) m d (crlf ++ w) s1 HR1 Hdm) as (s2 & -> & HR2).
      destruct (two_read _ _ HR2) as (s3 & -> & HR3).
      change 2 with (lenZ crlf) in HR3. rewrite dropZ_app_exact in HR3.
      change (takeZ 2 (crlf ++ w)) with (takeZ (lenZ crlf) (crlf ++ w)). rewrite takeZ_app_exact.
      rewrite leqb_refl. cbn [set_stream].
      set (b3 := set_stream s3 (set_stream s1 b)).
      destruct (process_feeds b3 d o dec' Hfd) as (E1 & E2 & E3 & E4 & E5 & E6 & E7).
      set (b4 := process_read d b3) in *.
      assert (Hlw : (List.length w < n)%nat).
      { rewrite !app_length in Hn. destruct Hsl as (_ & _ & Hp). unfold lenZ in Hp. lia. }
      assert (Eo : buff_data b4 ++ out' = o ++ out') by now rewrite E2.
      rewrite <- Eo in Hf |- *. apply (IH b4 w out').
      + exact Hlw.
      + split; [rewrite E3; exact Hall|rewrite E4; exact Hs0|rewrite E5; exact Hblk].
      + rewrite E6. exact Hck.
      + rewrite E7. exact HR3.
      + rewrite E1. exact Hy'.
      + exact Hf.
    - right. split; [reflexivity|].
      destruct (size_read _ _ _ _ HR Hsl) as (s1 & -> & HR1).
      unfold try_decode. rewrite (proj1 Hsl). pose proof (lenZ_nonneg d).
      replace (m =? 0) with false by lia. cbn [br_stream set_stream].
      assert (ck_raises (set_stream s1 b) = true) as Er.
      { unfold ck_raises. cbn. now rewrite Hck. }
      rewrite Er.
      destruct (chunk_cut true m d s1 HR1 Hdm) as (s2 & -> & _).
      assert (ck_raises (set_stream s2 (set_stream s1 b)) = true) as -> by exact Er. eauto.
    - right. split; [reflexivity|].
      destruct (HL _ _ 64 HR ltac:(lia)) as (s1 & -> & HR1). fold (head_line raw) in *.
      unfold try_decode. rewrite (no_size_header _ Hns). unfold ck_raises. cbn [br_ck set_stream]. rewrite Hck.
      cbn [ck_raise]. eauto.
    - right. split; [reflexivity|].
      destruct (size_read _ _ _ _ HR Hsl) as (s1 & -> & HR1).
      unfold try_decode. rewrite (proj1 Hsl). cbn [br_stream set_stream].
      destruct (m =? 0) eqn:Ed0.
      + assert (d = []) as -> by (apply lenZ_0; lia). cbn [app] in *.
        destruct (two_read _ _ HR1) as (s3 & -> & HR3).
        rewrite (proj2 (leqb_neq _ _) Hc). unfold ck_raises. cbn [br_ck set_stream]. rewrite Hck.
        cbn [ck_raise]. eauto.
      + destruct (chunk_read (ck_raises (set_stream s1 b)) m d t s1 HR1 Hdm) as (s2 & -> & HR2).
        destruct (two_read _ _ HR2) as (s3 & -> & HR3).
        rewrite (proj2 (leqb_neq _ _) Hc). unfold ck_raises. cbn [br_ck set_stream]. rewrite Hck.
        cbn [ck_raise]. eauto.
  Qed.

  Lemma CE_fill b c : CE b c ->
    (exists b', fillbuff ops fuel b = (Ok tt, b') /\ CE b' c /\ buff_data b' <> [])
    \/ (c = [] /\ exists x b', fillbuff ops fuel b = (Err (ChunkedExn x), b')).
  Proof.
    intros (Hf & Hst & Hck & raw & out & HR & Hy & ->). unfold fillbuff. rewrite Hck. cbn [ck_not].
    apply (chunk_fill_err fuel b raw out); try assumption. pose proof (Hfuel _ _ HR). lia.
  Qed.

  Lemma CE_take b c n : CE b c -> 0 <= n <= lenZ (buff_data b) ->
    CE (set_bbuff (Some (dropZ n (buff_data b))) b) (dropZ n c).
  Proof.
    intros (Hf & Hst & Hck & raw & out & HR & Hy & ->) Hn.
    assert (lenZ (dropZ n (buff_data b ++ out)) <= lenZ (buff_data b ++ out)).
    { rewrite lenZ_dropZ by lia. pose proof (lenZ_nonneg (buff_data b ++ out)). lia. }
    split; [unfold lenZ in *; lia|]. split; [destruct Hst; split; assumption|]. split; [exact Hck|].
    exists raw, out. split; [exact HR|]. split; [exact Hy|]. now rewrite dropZ_app_le by lia.
  Qed.

  (** reads within the good data succeed, the first one beyond it raises *)
  Lemma CE_read_loop n : forall len acc b c, CE b c -> nonneg len -> (List.length c + 2 <= n)%nat ->
    match len with
    | Some k => if k <=? lenZ c
                then exists b', read_loop ops fuel n len acc b = (Ok (acc ++ takeZ k c), b') /\ CE b' (dropZ k c)
                else exists x b', read_loop ops fuel n len acc b = (Err (ChunkedExn x), b')
    | None => exists x b', read_loop ops fuel n len acc b = (Err (ChunkedExn x), b')
    end.
  Proof.
    induction n as [|n IH]; intros len acc b c HC Hl Hn; [lia|].
    cbn [read_loop].
    destruct (match len with None => true | Some k => 0 <? k end) eqn:Ek.
    2:{ destruct len as [k|]; [|discriminate]. cbn in Hl. assert (k = 0) as -> by lia.
        pose proof (lenZ_nonneg c). replace (0 <=? lenZ c) with true by lia.
        rewrite takeZ_0, dropZ_0, app_nil_r by lia. eauto. }
    destruct (CE_fill b c HC) as [(b1 & -> & HC1 & Hb)|(-> & x & b1 & ->)].
    2:{ destruct len as [k|]; [|eauto]. rewrite lenZ_nil. replace (k <=? 0) with false by lia. eauto. }
    assert (br_empty b1 = (false, b1)) as ->.
    { apply buff_nonempty_data in Hb. unfold br_empty. now rewrite Hb. }
    assert (exists rest, c = buff_data b1 ++ rest) as (rest & Ec).
    { destruct HC1 as (_ & _ & _ & raw & out & _ & _ & ->). eauto. }
    set (x := buff_data b1) in *. pose proof (lenZ_pos _ Hb) as Hp.
    set (out := read_of len x).
    assert (Ho : 0 < lenZ out <= lenZ x /\ out = takeZ (lenZ out) x).
    { unfold out, read_of. destruct len as [k|].
      - cbn in Hl. replace (k <? 0) with false by lia. rewrite lenZ_takeZ by lia. split; [lia|].
        destruct (Z.le_gt_cases k (lenZ x)); [now rewrite Z.min_l|]. rewrite Z.min_r by lia.
        rewrite !takeZ_all by lia. reflexivity.
      - split; [lia|]. now rewrite takeZ_all by lia. }
    destruct Ho as [Ho1 Ho2].
    pose proof (CE_take b1 c (lenZ out) HC1 ltac:(fold x; lia)) as HC2. fold x in HC2.
    assert (Hln : (List.length (dropZ (lenZ out) c) + 2 <= n)%nat).
    { assert (lenZ (dropZ (lenZ out) c) = lenZ c - lenZ out).
      { rewrite lenZ_dropZ by lia. rewrite Ec, lenZ_app. pose proof (lenZ_nonneg rest). lia. }
      unfold lenZ in *. lia. }
    assert (Eoc : takeZ (lenZ out) c = out).
    { rewrite Ec, takeZ_app_le by lia. now symmetry. }
    destruct len as [k|].
    - cbn in Hl, Ek. assert (Hok : lenZ out = Z.min k (lenZ x)).
      { unfold out, read_of. replace (k <? 0) with false by lia. apply lenZ_takeZ. lia. }
      specialize (IH (Some (k - lenZ out)) (acc ++ out) _ _ HC2 ltac:(unfold nonneg; lia) Hln). cbn iota in IH.
      assert (El : lenZ (dropZ (lenZ out) c) = lenZ c - lenZ out).
      { rewrite lenZ_dropZ by lia. rewrite Ec, lenZ_app. pose proof (lenZ_nonneg rest). lia. }
      rewrite El in IH. replace (k - lenZ out <=? lenZ c - lenZ out) with (k <=? lenZ c) in IH by lia.
      destruct (k <=? lenZ c) eqn:Ekc; [|exact IH].
      destruct IH as (b' & E & HC'). exists b'. rewrite E. split.
      + rewrite <- app_assoc. do 3 f_equal. symmetry. rewrite <- (takeZ_dropZ (lenZ out) c) at 1.
        rewrite Eoc. rewrite takeZ_app_ge by lia. reflexivity.
      + rewrite dropZ_dropZ in HC' by lia. now replace (k - lenZ out + lenZ out) with k in HC' by lia.
    - specialize (IH None (acc ++ out) _ _ HC2 Hl Hln). exact IH.
  Qed.

  Lemma CE_new s raw out block t : R s raw -> 0 < block ->
    fails (match t with Some x => Some (DActive (zinit zl x)) | None => None end) raw out ->
    (List.length out + 3 <= fuel)%nat ->
    CE (ckr_new s block t true) out.
  Proof.
    intros HR Hb Hy Hf. split; [exact Hf|]. split; [split; [reflexivity|reflexivity|exact Hb]|].
    split; [reflexivity|]. exists raw, out. auto.
  Qed.

  Lemma fails_chunks w p : chunks w p -> forall raw out,
    fails None raw out -> fails None (w ++ raw) (p ++ out).
  Proof. clear Hfuel.
    induction 1 as [|l d w p Hsl Hd Hdl Hc IH]; intros raw out Hy; [exact Hy|].
    rewrite <- !app_assoc. change [13%N; 10%N] with crlf.
    apply (f_chunk None l d (w ++ raw) d None (p ++ out)); auto. split; reflexivity.
  Qed.
End Chunked.

(** ** Sources *)
Lemma exact_paired {S} (ops : sops S) R : exact_read ops R -> paired ops R.
Proof. intros H. split; [now apply exact_read_delivers|]. intros s c HR. apply (H _ _ 2 HR). lia. Qed.

(** ** Sources with exact short lines *)
Lemma exact_short_line {S} (ops : sops S) R : exact_line ops R -> short_line ops R.
Proof. intros H s c k HR Hk. apply H; [assumption|lia]. Qed.

Lemma br_short_line {zl S} (ops : sops S) fuel (M : Z) (I : breader zl S -> bytes -> Prop) :
  fill_ok ops fuel M I -> 64 <= M -> short_line (br_ops ops fuel) I.
Proof.
  intros FO HM b c k HI Hk. cbn [br_ops o_readline].
  apply (br_readline_exact0 ops fuel M I FO); [assumption|lia|]. rewrite lenZ_takeZ by lia. lia.
Qed.

Lemma lim_short_line {S} (ops : sops S) R tail : short_line ops R -> short_line (lim_ops ops) (lim_R R tail).
Proof.
  intros HD l c k HR Hk. unfold lim_ops, o_readline, lim_readline, lim_len.
  destruct (Z.min k (lm_limit l) =? 0) eqn:E.
  - assert (c = []) as -> by (eapply lim_R_limit0; [eassumption|destruct HR as (_ & HR2 & _); pose proof (lenZ_nonneg c); lia]).
    exists l. now split.
  - pose proof HR as (HR1 & HR2 & HR3). pose proof (lenZ_nonneg c).
    destruct (HD _ _ (Z.min k (lm_limit l)) HR1 ltac:(lia)) as (s' & Eo & HR').
    rewrite (lim_take_line _ _ _ _ _ HR (proj1 Hk)) in *. rewrite Eo.
    eexists. split; [reflexivity|].
    pose proof (line_of_split (Some k) c) as Hs. unfold line_of in Hs.
    replace (k <? 0) with false in Hs by lia.
    eapply lim_R_step; [eassumption|symmetry; exact Hs|].
    rewrite <- dropZ_app_le; [assumption|].
    rewrite <- Hs at 2. rewrite lenZ_app. pose proof (lenZ_nonneg (dropZ (lenZ (takeZ k (take_line c))) c)). lia.
Qed.

(** ** Files with short reads of at least two bytes *)
Definition raw_RP (T : Z) (fuel : nat) (s : raw) (c : bytes) : Prop := raw_R T fuel s c /\ no_single (rw_sched s).
Lemma raw_paired T fuel : paired raw_ops (raw_RP T fuel).
Proof.
  assert (Hsub : forall s k out s', raw_read (Some k) s = (Ok out, s') -> no_single (rw_sched s) -> no_single (rw_sched s')).
  { intros s k out s' E H. unfold raw_read in E. destruct (0 <? k).
    - destruct (rw_rest s) as [|x t]; [injection E as <- <-; exact H|]. unfold no_single in *.
      destruct H as [|y l H1 H2]; injection E as <- <-; [constructor|exact H2].
    - destruct (k =? 0); injection E as <- <-; exact H. }
  split.
  - intros s c k [HR Hs] Hk. destruct (raw_delivers T fuel s c k HR Hk) as (out & rest & s' & E & HR' & H).
    exists out, rest, s'. split; [exact E|]. split; [split; [exact HR'|exact (Hsub _ _ _ _ E Hs)]|exact H].
  - intros s c [HR Hs]. pose proof HR as (E & _). cbn [raw_ops o_read].
    assert (E2 : fst (raw_read (Some 2) s) = Ok (takeZ 2 c)
       /\ raw_R T fuel (snd (raw_read (Some 2) s)) (dropZ 2 c)).
    { unfold raw_read. change (0 <? 2) with true. cbv iota. rewrite <- E in *.
      destruct (rw_rest s) as [|x t] eqn:Er.
      - cbn [fst snd]. split; [reflexivity|]. eapply raw_R_step; [exact HR|]. symmetry. apply takeZ_dropZ.
      - assert (exists sched, (match rw_sched s with [] => (2, []) | y :: t0 => (Z.min 2 (Z.max 1 y), t0) end) = (2, sched)) as (sched & ->).
        { unfold no_single in Hs. destruct Hs as [|y l H1 H2]; [eauto|]. exists l. f_equal. lia. }
        cbn [fst snd]. split; [reflexivity|]. eapply raw_R_step; [exact HR|]. symmetry. apply takeZ_dropZ. }
    destruct (raw_read (Some 2) s) as [r s'] eqn:Ed. cbn [fst snd] in E2. destruct E2 as [-> HR'].
    exists s'. split; [reflexivity|]. split; [exact HR'|exact (Hsub _ _ _ _ Ed Hs)].
Qed.
Lemma raw_exact_lineP T fuel : exact_line raw_ops (raw_RP T fuel).
Proof.
  intros s c k [HR Hs] Hk. destruct (raw_exact_line T fuel s c k HR Hk) as (s' & E & HR').
  exists s'. split; [exact E|]. split; [exact HR'|].
  apply (f_equal snd) in E. cbn in E. subst s'. exact Hs.
Qed.
Lemma raw_RP_open data sched fuel : no_single sched -> (List.length data + 3 <= fuel)%nat ->
  raw_RP (lenZ data) fuel (raw_open data sched) data.
Proof. intros. split; [now apply raw_R_open|assumption]. Qed.

(** ** A LimitReader over such a source *)
Lemma lim_paired {S} (ops : sops S) R tail : paired ops R -> paired (lim_ops ops) (lim_R R tail).
Proof.
  intros [HD HP]. pose proof (lim_delivers ops R tail HD) as HLD. split; [exact HLD|].
  intros l c HR. pose proof HR as (HR1 & HR2 & HR3). pose proof (lenZ_nonneg c).
  destruct (Z_le_gt_dec 2 (lm_limit l)) as [H2|H2].
  - unfold lim_ops, o_read, lim_read, lim_len. rewrite Z.min_l by lia. change (2 =? 0) with false. cbv iota.
    destruct (HP _ _ HR1) as (s' & E & HR'). rewrite E.
    assert (Et : takeZ 2 (c ++ tail) = takeZ 2 c).
    { destruct tail as [|x t]; [now rewrite app_nil_r|]. apply takeZ_app_le. rewrite <- HR3 by discriminate. exact H2. }
    rewrite Et. exists (lim_update (takeZ 2 c) s' l). split; [reflexivity|].
    eapply lim_R_step; [eassumption|symmetry; apply takeZ_dropZ|].
    assert (dropZ 2 (c ++ tail) = dropZ 2 c ++ tail) as Ed.
    { apply (app_inv_head (takeZ 2 c)). rewrite <- Et at 1. rewrite takeZ_dropZ. rewrite app_assoc, takeZ_dropZ. reflexivity. }
    now rewrite <- Ed.
  - destruct (HLD l c 2 HR ltac:(lia)) as (out & rest & l' & E & HR' & Ec & Ho & Hne).
    assert (out = c /\ rest = []) as [-> ->].
    { destruct out as [|x out]; [specialize (Hne eq_refl); subst c; cbn [app] in Hne; subst; auto|].
      assert (lenZ (x :: out) + lenZ rest <= 1) by (rewrite <- lenZ_app, <- Ec; lia).
      assert (rest = []) as ->; [|rewrite app_nil_r in Ec; auto].
      apply lenZ_0. pose proof (lenZ_nonneg rest). pose proof (lenZ_nonneg out). unfold lenZ in *. cbn [List.length] in *. lia. }
    exists l'. rewrite takeZ_all, dropZ_all by lia. split; [exact E|exact HR'].
Qed.
