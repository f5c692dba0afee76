(** * Thm_HdrTotal: proofs of the theorems restated in Props_HdrTotal.v *)
From Coq Require Import String List ZArith NArith Bool.
From Verif Require Import PyBase Utf8 Headers HeaderSpec StrHeaders Streams StreamSpec.
Import ListNotations.
Open Scope Z_scope.

From Coq Require Import Lia ZifyBool ZifyNat ZifyN.
From Verif Require Import Facts HeaderProofs Thm_Headers.

(** the number of characters of lines decoded one by one *)
Fixpoint chars (lines : list bytes) : Z :=
  match lines with
  | [] => 0
  | l :: t => lenZ (decode_header l) + chars t
  end.

Lemma chars_app a b : chars (a ++ b) = chars a + chars b.
Proof. induction a as [|l a IH]; cbn [app chars]; lia. Qed.
Section Total.
  Context {S : Type} (rl : S -> res bytes * S) (R : S -> bytes -> Prop) (HL : reads_lines rl R).
  Variable fuel : nat.
  (** from [c] to [c'] whole lines were read *)
  Inductive lines_read : list bytes -> bytes -> bytes -> Prop :=
  | lr_nil c : lines_read [] c c
  | lr_line c l c' : lines_read l (drop_line c) c' -> lines_read (take_line c :: l) c c'.
  Lemma lr_snoc l : forall c c', lines_read l c c' -> lines_read (l ++ [take_line c']) c (drop_line c').
  Proof. induction 1; cbn [app]; [apply lr_line, lr_nil|now apply lr_line]. Qed.
  Lemma lr_trans l : forall c c', lines_read l c c' -> forall l2 c2, lines_read l2 c' c2 -> lines_read (l ++ l2) c c2.
  Proof. induction 1; intros l2 c2 H2; cbn [app]; [exact H2|apply lr_line; auto]. Qed.
  Lemma lr_concat l : forall c c', lines_read l c c' -> c = List.concat l ++ c'.
  Proof. induction 1 as [|c l c' H IH]; [reflexivity|]. cbn [List.concat]. rewrite <- app_assoc, <- IH. symmetry. apply take_drop_line. Qed.

  Lemma next_line_total total s c line total' s' : R s c -> next_line rl total s = (Ok (line, total'), s') ->
    R s' (drop_line c) /\ total' = total + lenZ (decode_header (take_line c)).
  Proof. intros HR E. destruct (next_line_any rl R HL total s c HR) as (s1 & E1 & H1). rewrite E1 in E. injection E as _ <- <-. auto. Qed.
  Lemma cont_loop_total n : forall value line total s c v l' tot s', R s c ->
    cont_loop rl n value line total s = (Ok (v, l', tot), s') ->
    exists lines c', R s' c' /\ lines_read lines c c' /\ tot = total + chars lines.
  Proof.
    induction n as [|n IH]; intros value line total s c v l' tot s' HR E; [discriminate|]. cbn [cont_loop] in E.
    destruct (negb (is_nil line) && starts_sp_tab line).
    - destruct (next_line rl total s) as [[[line1 t1]|e] s1] eqn:E1; [|discriminate]. destruct (next_line_total _ _ _ _ _ _ HR E1) as [H1 H2].
      destruct (IH _ _ _ _ _ _ _ _ _ H1 E) as (lines & c' & A & B & C). exists (take_line c :: lines), c'. split; [exact A|]. split; [now apply lr_line|]. cbn [chars]. lia.
    - injection E as _ _ <- <-. exists [], c. split; [exact HR|]. split; [constructor|]. cbn [chars]. lia.
  Qed.
  Lemma header_loop_total n : forall acc line total s c hs tot s', R s c ->
    header_loop rl fuel n acc line total s = (Ok (hs, tot), s') ->
    exists lines c', R s' c' /\ lines_read lines c c' /\ tot = total + chars lines.
  Proof.
    induction n as [|n IH]; intros acc line total s c hs tot s' HR E; [discriminate|]. cbn [header_loop] in E.
    destruct (is_nil line).
    - injection E as _ <- <-. exists [], c. split; [exact HR|]. split; [constructor|]. cbn [chars]. lia.
    - destruct (split_header line) as [nm vl]. destruct (next_line rl total s) as [[[line1 t1]|e] s1] eqn:E1; [|discriminate].
      destruct (next_line_total _ _ _ _ _ _ HR E1) as [H1 H2]. destruct (cont_loop rl fuel vl line1 t1 s1) as [[[[v l'] t2]|e] s2] eqn:E2; [|discriminate].
      destruct (cont_loop_total _ _ _ _ _ _ _ _ _ _ H1 E2) as (la & ca & A1 & A2 & A3). destruct (IH _ _ _ _ _ _ _ _ A1 E) as (lb & cb & B1 & B2 & B3).
      exists (take_line c :: la ++ lb), cb. split; [exact B1|]. split; [apply lr_line; eapply lr_trans; eauto|]. cbn [chars]. rewrite chars_app. lia.
  Qed.
  Lemma parse_total p s c h s' : R s c -> parse rl fuel p None s = (Ok h, s') ->
    exists lines c', R s' c' /\ lines_read lines c c' /\ sh_total h = chars lines.
  Proof.
    intros HR E. unfold parse in E. destruct (HL s c HR) as (s1 & E1 & H1). rewrite E1 in E. cbn [decode_hline] in E.
    destruct (lenZ (decode_header (take_line c)) =? 0); [discriminate|].
    destruct (is_nil (urstrip (decode_header (take_line c)))).
    { injection E as <- <-. exists [take_line c], (drop_line c). split; [exact H1|]. split; [apply lr_line, lr_nil|]. cbn [chars sh_total]. lia. }
    match type of E with match ?P with Some _ => _ | None => _ end = _ => destruct P as [[proto st]|]; [|discriminate] end.
    destruct (next_line rl (lenZ (decode_header (take_line c))) s1) as [[[line1 t1]|e] s2] eqn:E2; [|discriminate].
    destruct (next_line_total _ _ _ _ _ _ H1 E2) as [H2 H3].
    destruct (header_loop rl fuel fuel [] line1 t1 s2) as [[[hs tot]|e] s3] eqn:E3; [|discriminate]. injection E as <- <-.
    destruct (header_loop_total _ _ _ _ _ _ _ _ _ H2 E3) as (lines & c' & A & B & C).
    exists (take_line c :: take_line (drop_line c) :: lines), c'. split; [exact A|]. split; [now do 2 apply lr_line|]. cbn [chars sh_total]. lia.
  Qed.
End Total.
Lemma decode_ascii l : ascii_text l -> decode_header l = l.
Proof. intros H. rewrite <- (Thm_Headers.enc_ascii l H) at 1. apply decode_enc. exact (ascii_scalar l H). Qed.
Lemma chars_ascii lines : Forall ascii_text lines -> chars lines = lenZ (concat lines).
Proof. induction 1 as [|l t H _ IH]; [reflexivity|]. cbn [chars concat]. rewrite lenZ_app, decode_ascii by exact H. lia. Qed.

Lemma C20_total_pf :
  forall (S : Type) (rl : S -> res bytes * S) (R : S -> bytes -> Prop) fuel p s c h s',
  reads_lines rl R -> R s c -> parse rl fuel p None s = (Ok h, s') ->
  exists lines rest, R s' rest /\ c = concat lines ++ rest /\ sh_total h = chars lines
    /\ (forall a l b, lines = a ++ l :: b -> l = take_line (concat (l :: b) ++ rest))
    /\ (ascii_text c -> sh_total h = lenZ c - lenZ rest).
Proof.
intros S rl R fuel p s c h s' HL HR E. destruct (parse_total rl R HL fuel p s c h s' HR E) as (lines & rest & A & B & C).
pose proof (lr_concat _ _ _ B) as D. exists lines, rest. split; [exact A|]. split; [exact D|]. split; [exact C|]. split.
- clear - B. induction B as [|c l c' H IH]; intros a x b E; [destruct a; discriminate|]. destruct a as [|a0 a]; cbn [app] in E.
  + injection E as <- <-. cbn [concat]. rewrite <- app_assoc, <- (lr_concat _ _ _ H). now rewrite take_drop_line.
  + injection E as _ E. exact (IH a x b E).
- intros HA. rewrite C, D, lenZ_app. rewrite chars_ascii; [lia|]. clear - HA D. subst c. rewrite Forall_forall. intros l Hl x Hx. apply HA. apply in_or_app. left. apply in_concat. eauto.
Qed.

Lemma C20_total_refuted_pf :
  exists c h s', parse (o_readline raw_ops None) 60 (mk_parser [lit "HTTP/1.0"] true) None (raw_open c []) = (Ok h, s')
  /\ rw_pos s' = lenZ c /\ sh_total h < lenZ c.
Proof.
exists (lit "HTTP/1.0 200 OK" ++ crlf ++ lit "A: " ++ [195; 169]%N ++ crlf ++ crlf). do 2 eexists. split; [vm_compute; reflexivity|]. split; vm_compute; reflexivity.
Qed.

Lemma C100_request_text_pf :
  forall line hs,
  (forall verb rest, line = verb ++ 32%N :: rest -> ~ In 32%N verb ->
     exists h, sah_request line hs = Ok h /\ sh_proto h = verb /\ sh_status h = rest /\ sh_headers h = hs /\ sh_total h = 0)
  /\ (~ In 32%N line -> sah_request line hs = Err ValueErr)
  /\ (forall a proto, str_headers a = Ok hs -> sah_init line a proto true = sah_request line hs).
Proof.
intros line hs. split; [|split].
- intros verb rest E H. unfold sah_request. rewrite (proj2 (split1_spec 32%N line verb rest) (conj E H)). eexists. repeat split.
- intros H. unfold sah_request. now rewrite (proj2 (split1_None 32%N line) H).
- intros a proto E. unfold sah_init, sah_request. destruct (split1 32%N line) as [[x y]|]; [|reflexivity]. now rewrite E.
Qed.
