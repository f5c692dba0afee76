(** * Thm_AnyChunk: proofs of the theorems restated in Props_AnyChunk.v *)
From Coq Require Import String List ZArith NArith Bool Lia.
From Coq Require Import ZifyBool ZifyNat ZifyN.
From Verif Require Import PyBase Headers Streams Loader StreamSpec WriterSpec ChunkSpec Toy.
Import ListNotations.
Open Scope Z_scope.

From Verif Require Import Facts HeaderProofs StreamProofs BufProofs FillProofs CallProofs ChunkProofs Thm_Chunk.

(** ** int(b, 16) accepts every literal *)
Lemma int_digits_app2 a : forall st acc b v, int_digits 16 st acc a = Some v -> a <> [] ->
  int_digits 16 st acc (a ++ b) = int_digits 16 true v b.
Proof.
  induction a as [|c a IH]; intros st acc b v H Ha; [contradiction|].
  cbn [app int_digits] in *. rewrite digit_in16 in *. destruct (hexval c) as [d|].
  - destruct a as [|c2 a]; [cbn in H; injection H as <-; reflexivity|]. apply IH; [assumption|discriminate].
  - destruct ((c =? 95)%N && st); [|discriminate]. destruct a as [|c2 a]; [discriminate|].
    cbn [app]. destruct (digit_in 16 c2); [|discriminate]. apply (IH false acc b v H). discriminate.
Qed.

Lemma digits16_ne l v : digits16 l v -> l <> [].
Proof. intros H; destruct H; [discriminate|destruct l; discriminate|destruct l; discriminate]. Qed.

Lemma digits16_val l v : digits16 l v -> 0 <= v /\ int_digits 16 false 0 l = Some (Z.to_N v).
Proof.
  induction 1 as [c v H|l n c v Hl [IH0 IH] H|l n c v Hl [IH0 IH] H];
    apply hex_digit_val in H as (w & E & ->).
  - cbn. rewrite digit_in16, E. split; [lia|]. f_equal. lia.
  - split; [lia|]. rewrite (int_digits_app2 _ _ _ _ _ IH (digits16_ne _ _ Hl)). cbn [int_digits].
    rewrite digit_in16, E. f_equal. lia.
  - split; [lia|]. rewrite (int_digits_app2 _ _ _ _ _ IH (digits16_ne _ _ Hl)). cbn [int_digits].
    replace (digit_in 16 95) with (@None N) by reflexivity. cbn [N.eqb Pos.eqb andb].
    rewrite digit_in16, E. f_equal. lia.
Qed.

Lemma digits16_chars l v : digits16 l v -> Forall (fun c => hexval c <> None \/ c = 95%N) l
  /\ (exists c t, l = c :: t /\ hexval c <> None) /\ exists a c, l = a ++ [c] /\ hexval c <> None.
Proof.
  induction 1 as [c v H|l n c v Hl (IH1 & (x & t & -> & Hx) & _) H|l n c v Hl (IH1 & (x & t & -> & Hx) & _) H];
    apply hex_digit_val in H as (w & E & _); assert (Hc : hexval c <> None) by congruence.
  - split; [constructor; [now left|constructor]|]. split; [exists c, []; auto|exists [], c; auto].
  - split; [apply Forall_app; split; [assumption|constructor; [now left|constructor]]|].
    split; [exists x, (t ++ [c]); auto|exists (x :: t), c; auto].
  - split; [apply Forall_app; split; [assumption|constructor; [now right|constructor; [now left|constructor]]]|].
    split; [exists x, (t ++ [95%N; c]); auto|]. exists ((x :: t) ++ [95%N]), c. now rewrite <- app_assoc.
Qed.

Lemma hexval_white c : hexval c <> None -> is_bspace c = false.
Proof. intros H. apply hexchar_bounds in H. destruct (is_bspace c) eqn:E; [|reflexivity]. apply bspace_white in E. lia. Qed.

Lemma white_forallb2 l : white l -> forallb is_bspace l = true.
Proof. intros H. apply forallb_forall. intros x Hx. apply bspace_white. unfold white in H. rewrite Forall_forall in H. exact (H x Hx). Qed.

Lemma strip_core w1 m w2 : white w1 -> white w2 ->
  (exists c t, m = c :: t /\ is_bspace c = false) -> (exists a c, m = a ++ [c] /\ is_bspace c = false) ->
  stripp is_bspace (w1 ++ m ++ w2) = m.
Proof.
  intros H1 H2 (c & t & Em & Hc) (a & z & Em2 & Hz). unfold stripp.
  rewrite app_assoc, rstripp_app by (now apply white_forallb2).
  rewrite rstripp_id by (right; exists (w1 ++ a), z; rewrite Em2, app_assoc; auto).
  rewrite lstripp_app by (now apply white_forallb2). apply lstripp_id. now rewrite Em.
Qed.

Lemma py_int16_complete s n : int16_literal s n -> py_int16 s = Some n.
Proof.
  intros (w1 & sign & prefix & ds & w2 & v & -> & H1 & H2 & Hp & Hd & Hs).
  pose proof (digits16_val _ _ Hd) as [Hv Ed]. pose proof (digits16_chars _ _ Hd) as (Hf & (c & t & Ec & Hc) & (a & z & Ez & Hz)).
  unfold py_int16, int_core.
  assert (Est : stripp is_bspace (w1 ++ sign ++ prefix ++ ds ++ w2) = sign ++ prefix ++ ds).
  { replace (w1 ++ sign ++ prefix ++ ds ++ w2) with (w1 ++ (sign ++ prefix ++ ds) ++ w2) by (now rewrite <- !app_assoc).
    apply strip_core; [assumption|assumption| |].
    - assert (sign = [] \/ sign = [43%N] \/ sign = [45%N]) as Hsg.
      { destruct Hs as [([Hs|[Hs|[]]] & _)|(Hs & _)]; auto. }
      destruct Hsg as [->|[->| ->]]; [|eexists _, _; split; [reflexivity|reflexivity]|eexists _, _; split; [reflexivity|reflexivity]].
      cbn [app]. cbn [In] in Hp.
      destruct Hp as [<-|Hp]; [exists c, t; split; [exact Ec|now apply hexval_white]|].
      destruct Hp as [<-|[<-|[<-|[<-|[]]]]]; eexists _, _; (split; [reflexivity|reflexivity]).
    - exists (sign ++ prefix ++ a), z. split; [rewrite Ez, <- !app_assoc; reflexivity|now apply hexval_white]. }
  rewrite Est.
  assert (Esg : match sign ++ prefix ++ ds with
                | 43%N :: t => (false, t) | 45%N :: t => (true, t) | _ => (false, sign ++ prefix ++ ds) end
                = (match sign with [45%N] => true | _ => false end, prefix ++ ds)).
  { assert (Hfst : exists y u, prefix ++ ds = y :: u /\ y <> 43%N /\ y <> 45%N).
    { cbn [In] in Hp. destruct Hp as [<-|Hp].
      - exists c, t. split; [exact Ec|]. apply hexchar_bounds in Hc. lia.
      - destruct Hp as [<-|[<-|[<-|[<-|[]]]]]; cbn [app]; eexists _, _; (split; [reflexivity|lia]). }
    destruct Hfst as (y & u & -> & Hy1 & Hy2).
    destruct Hs as [([<-|[<-|[]]] & _)|(-> & _)]; [|reflexivity|reflexivity]. cbn [app].
    destruct y as [|p]; [reflexivity|]. do 6 (destruct p as [p|p|]; try reflexivity); congruence. }
  rewrite Esg. cbn [N.eqb Pos.eqb].
  assert (Epf : match prefix ++ ds with
             | 48%N :: x :: t => if ((x =? 120)%N || (x =? 88)%N)%bool then match t with 95%N :: t' => t' | _ => t end else prefix ++ ds
             | _ => prefix ++ ds end = ds).
  { assert (Hnu : match ds with 95%N :: t' => t' | _ => ds end = ds).
    { rewrite Ec. apply hexchar_bounds in Hc. destruct c as [|p]; [reflexivity|]. do 7 (destruct p as [p|p|]; try reflexivity). lia. }
    cbn [In] in Hp. destruct Hp as [<-|Hp].
    - cbn [app]. rewrite Ec in Hf |- *. inversion Hf as [|? ? _ Hf']; subst.
      destruct t as [|x t]; [destruct c as [|p]; [reflexivity|do 6 (destruct p as [p|p|]; try reflexivity)]|].
      inversion Hf' as [|? ? Hx _]; subst.
      assert (((x =? 120)%N || (x =? 88)%N) = false) as Ex by (destruct Hx as [Hx| ->]; [apply hexchar_bounds in Hx; lia|reflexivity]).
      rewrite Ex. destruct c as [|p]; [reflexivity|do 6 (destruct p as [p|p|]; try reflexivity)].
    - destruct Hp as [<-|[<-|[<-|[<-|[]]]]]; cbn [app N.eqb Pos.eqb orb]; first [exact Hnu|reflexivity]. }
  rewrite Epf, Ed. destruct Hs as [([<-|[<-|[]]] & ->)|(-> & ->)]; f_equal; lia.
Qed.

(** ** size lines *)
Lemma chunk_header_complete h n : valid_size_line h n -> chunk_header h = Some n.
Proof.
  intros (body & s & -> & (Hno & Hs) & Hi & Hn). unfold chunk_header.
  destruct (dropZ_last2 body 13 10) as [-> ->]. replace (leqb [13%N; 10%N] crlf) with true by reflexivity.
  rewrite lenZ_app. change (lenZ [13%N; 10%N]) with 2. pose proof (lenZ_nonneg body).
  replace (2 <=? lenZ body + 2) with true by lia. cbn [andb].
  assert (Es : match split1 59%N body with Some (a, _) => a | None => body end = s).
  { destruct Hs as [->|(t & ->)].
    - now rewrite (proj2 (split1_None _ _)).
    - rewrite (proj2 (split1_spec _ _ s t)); auto. }
  rewrite Es, (py_int16_complete _ _ Hi). now replace (n <=? 2147483648) with true by lia.
Qed.

Lemma size_at_hdr l n : size_at l n -> hdr l n.
Proof.
  intros (Hv & a & -> & Ha & Hl). split; [now apply chunk_header_complete|]. split.
  - intros x. rewrite <- app_assoc. change ([13%N; 10%N] ++ x) with ([13%N] ++ LF :: x). rewrite app_assoc, take_line_LF.
    + rewrite <- app_assoc. cbn [app]. now apply takeZ_all.
    + rewrite in_app_iff. intros [H|[H|[]]]; [now apply Ha|discriminate].
  - rewrite lenZ_app. change (lenZ [13%N; 10%N]) with 2. pose proof (lenZ_nonneg a). lia.
Qed.

Lemma hdr_inj l1 n1 r1 l2 n2 r2 : hdr l1 n1 -> hdr l2 n2 -> l1 ++ r1 = l2 ++ r2 -> l1 = l2 /\ n1 = n2 /\ r1 = r2.
Proof.
  intros (A1 & B1 & _) (A2 & B2 & _) E. assert (l1 = l2) as <-.
  { rewrite <- (B1 r1), <- (B2 r2). now rewrite E. }
  split; [reflexivity|]. split; [congruence|]. now apply app_inv_head in E.
Qed.

Lemma take_line_cases t : (exists a r, t = a ++ LF :: r /\ ~ In LF a /\ take_line t = a ++ [LF]) \/ (~ In LF t /\ take_line t = t).
Proof.
  induction t as [|x t IH]; [right; auto|]. cbn [take_line]. destruct (N.eqb_spec x LF) as [->|Hx].
  - left. exists [], t. auto.
  - destruct IH as [(a & r & -> & Ha & E)|(Ha & E)].
    + left. exists (x :: a), r. rewrite E. split; [reflexivity|]. split; [|reflexivity]. intros [H|H]; [congruence|tauto].
    + right. rewrite E. split; [|reflexivity]. intros [H|H]; [congruence|tauto].
Qed.

(** every text has a size line at the front, or none *)
Lemma size_line_dec t : no_size_line t \/ exists l n r, t = l ++ r /\ size_at l n.
Proof.
  destruct (chunk_header (head_line t)) as [n|] eqn:E.
  - right. apply chunk_header_sound in E. exists (head_line t), n, (dropZ (lenZ (head_line t)) t).
    split; [symmetry; exact (line_of_split (Some 64) t)|]. split; [assumption|].
    destruct E as (body & s & Eh & _). exists body. split; [assumption|].
    assert (Hl : lenZ (head_line t) <= 64).
    { unfold head_line. rewrite lenZ_takeZ by lia. lia. }
    split; [|assumption].
    unfold head_line in Eh. destruct (take_line_cases t) as [(a & r & Et & Ha & Etl)|(Ha & Etl)].
    + rewrite Etl in Eh. assert (Hp : exists z, a ++ [LF] = (body ++ [13%N; 10%N]) ++ z).
      { exists (dropZ 64 (a ++ [LF])). rewrite <- Eh. symmetry. apply takeZ_dropZ. }
      destruct Hp as (z & Hz). destruct (exists_last (l:=[13%N;10%N] ++ z) ltac:(discriminate)) as (z' & y & Ez).
      rewrite <- app_assoc, Ez, app_assoc in Hz. apply app_inj_tail in Hz as [Hz _].
      intros Hi. apply Ha. rewrite Hz, in_app_iff. now left.
    + rewrite Etl in Eh. intros Hi. apply Ha. rewrite <- (takeZ_dropZ 64 t), Eh, !in_app_iff. left. now left.
  - left. intros n Hn. apply chunk_header_complete in Hn. congruence.
Qed.

Lemma no_hdr l n r : hdr l n -> ~ no_size_line (l ++ r).
Proof.
  intros (A & B & _) H. apply no_size_header in H. unfold head_line in H. rewrite B in H. congruence.
Qed.

Lemma crlf_cases (r : bytes) : (exists r2, r = crlf ++ r2) \/ takeZ 2 r <> crlf.
Proof.
  destruct (list_eq_dec N.eq_dec (takeZ 2 r) crlf) as [E|E]; [|now right].
  left. exists (dropZ 2 r). rewrite <- E. symmetry. apply takeZ_dropZ.
Qed.

Lemma data_cases n (r : bytes) : lenZ r < n \/ exists d r2, r = d ++ r2 /\ lenZ d = Z.max 0 n.
Proof.
  destruct (Z_lt_le_dec (lenZ r) n) as [H|H]; [now left|]. right. exists (takeZ (Z.max 0 n) r), (dropZ (Z.max 0 n) r).
  split; [symmetry; apply takeZ_dropZ|]. rewrite lenZ_takeZ by lia. pose proof (lenZ_nonneg r). lia.
Qed.

Lemma decodes_total_len m : forall t, (length t <= m)%nat -> exists out, decodes t out.
Proof.
  induction m as [|m IH]; intros t Hm.
  { destruct t; [|cbn [length] in Hm; lia]. exists []. apply de_plain. intros n (b & s & E & _). destruct b; discriminate. }
  destruct (size_line_dec t) as [H|(l & n & r & -> & Hl)]; [exists t; now apply de_plain|].
  pose proof (size_at_hdr _ _ Hl) as (_ & _ & Hp).
  destruct (Z.eq_dec n 0) as [->|Hn].
  - destruct (crlf_cases r) as [(r2 & ->)|Hr]; [exists []; now apply de_last|].
    exists (l ++ [] ++ dropZ 2 r). exact (de_broken l 0 [] r Hl eq_refl Hr).
  - destruct (data_cases n r) as [Hc|(d & r2 & -> & Hd)]; [exists r; now apply (de_cut l n)|].
    destruct (crlf_cases r2) as [(r3 & ->)|Hr].
    + destruct (IH r3) as (out & Ho).
      { rewrite !app_length in Hm. unfold lenZ in Hp. lia. }
      exists (d ++ out). now apply (de_chunk l n).
    + eexists. now apply (de_broken l n).
Qed.

Lemma app_inj_len (a b c d : bytes) : lenZ a = lenZ c -> a ++ b = c ++ d -> a = c /\ b = d.
Proof.
  intros H E. assert (takeZ (lenZ a) (a ++ b) = takeZ (lenZ a) (c ++ d)) as Et by now rewrite E.
  rewrite takeZ_app_exact, H, takeZ_app_exact in Et. subst c. split; [reflexivity|]. now apply app_inv_head in E.
Qed.

Lemma len_more (d x : bytes) : lenZ d <= lenZ (d ++ x).
Proof. rewrite lenZ_app. pose proof (lenZ_nonneg x). lia. Qed.

Lemma two_crlf (r : bytes) : takeZ 2 (crlf ++ r) = crlf.
Proof. change 2 with (lenZ crlf). apply takeZ_app_exact. Qed.

Lemma decodes_fun t out : decodes t out -> forall out', decodes t out' -> out' = out.
Proof.
  induction 1 as [t Ht|l r Hl|l n d r out Hl Hn Hd Ho IH|l n d Hl Hd|l n d r Hl Hd Hr]; intros out' H';
    try apply size_at_hdr in Hl.
  - inversion H' as [t' Ht'|l' r' Hl' E|l' n' d' r' o' Hl' Hn' Hd' Ho' E|l' n' d' Hl' Hd' E|l' n' d' r' Hl' Hd' Hr' E];
      subst; [reflexivity| | | |]; apply size_at_hdr in Hl'; exfalso; exact (no_hdr _ _ _ Hl' Ht).
  - inversion H' as [t' Ht' E|l' r' Hl' E|l' n' d' r' o' Hl' Hn' Hd' Ho' E|l' n' d' Hl' Hd' E|l' n' d' r' Hl' Hd' Hr' E]; subst;
      try apply size_at_hdr in Hl'.
    + exfalso. exact (no_hdr _ _ _ Hl Ht').
    + reflexivity.
    + destruct (hdr_inj _ _ _ _ _ _ Hl' Hl E) as (_ & -> & _). contradiction.
    + destruct (hdr_inj _ _ _ _ _ _ Hl' Hl E) as (_ & -> & _). pose proof (lenZ_nonneg out'). lia.
    + destruct (hdr_inj _ _ _ _ _ _ Hl' Hl E) as (_ & -> & E2). assert (d' = []) as -> by (apply lenZ_0; lia).
      cbn [app] in E2. subst r'. exfalso; exact (Hr' (two_crlf _)).
  - inversion H' as [t' Ht' E|l' r' Hl' E|l' n' d' r' o' Hl' Hn' Hd' Ho' E|l' n' d' Hl' Hd' E|l' n' d' r' Hl' Hd' Hr' E]; subst;
      try apply size_at_hdr in Hl'.
    + exfalso. exact (no_hdr _ _ _ Hl Ht').
    + destruct (hdr_inj _ _ _ _ _ _ Hl' Hl E) as (_ & <- & _). contradiction.
    + destruct (hdr_inj _ _ _ _ _ _ Hl' Hl E) as (_ & -> & E2).
      destruct (app_inj_len d' _ d _ ltac:(lia) E2) as [-> E3]. injection E3 as ->.
      now rewrite (IH _ Ho').
    + destruct (hdr_inj _ _ _ _ _ _ Hl' Hl E) as (_ & -> & ->). exfalso. pose proof (len_more d ([13%N; 10%N] ++ r)). cbn [app] in *. lia.
    + destruct (hdr_inj _ _ _ _ _ _ Hl' Hl E) as (_ & -> & E2).
      destruct (app_inj_len d' _ d _ ltac:(lia) E2) as [-> ->]. exfalso; exact (Hr' (two_crlf _)).
  - inversion H' as [t' Ht' E|l' r' Hl' E|l' n' d' r' o' Hl' Hn' Hd' Ho' E|l' n' d' Hl' Hd' E|l' n' d' r' Hl' Hd' Hr' E]; subst;
      try apply size_at_hdr in Hl'.
    + exfalso. exact (no_hdr _ _ _ Hl Ht').
    + destruct (hdr_inj _ _ _ _ _ _ Hl' Hl E) as (_ & <- & <-). exfalso. pose proof (lenZ_nonneg ([13%N; 10%N] ++ r')). cbn [app] in *. lia.
    + destruct (hdr_inj _ _ _ _ _ _ Hl' Hl E) as (_ & -> & <-). exfalso. pose proof (len_more d' ([13%N; 10%N] ++ r')). cbn [app] in *. lia.
    + destruct (hdr_inj _ _ _ _ _ _ Hl' Hl E) as (_ & _ & ->). reflexivity.
    + destruct (hdr_inj _ _ _ _ _ _ Hl' Hl E) as (_ & -> & <-). rewrite lenZ_app in Hd. pose proof (lenZ_nonneg r').
      pose proof (lenZ_nonneg d'). lia.
  - inversion H' as [t' Ht' E|l' r' Hl' E|l' n' d' r' o' Hl' Hn' Hd' Ho' E|l' n' d' Hl' Hd' E|l' n' d' r' Hl' Hd' Hr' E]; subst;
      try apply size_at_hdr in Hl'.
    + exfalso. exact (no_hdr _ _ _ Hl Ht').
    + destruct (hdr_inj _ _ _ _ _ _ Hl' Hl E) as (_ & <- & E2). assert (d = []) as -> by (apply lenZ_0; lia).
      cbn [app] in E2. subst r. exfalso; exact (Hr (two_crlf _)).
    + destruct (hdr_inj _ _ _ _ _ _ Hl' Hl E) as (_ & -> & E2).
      destruct (app_inj_len d' _ d _ ltac:(lia) E2) as [-> <-]. exfalso; exact (Hr (two_crlf _)).
    + destruct (hdr_inj _ _ _ _ _ _ Hl' Hl E) as (_ & -> & ->). rewrite lenZ_app in Hd'. pose proof (lenZ_nonneg r).
      pose proof (lenZ_nonneg d). lia.
    + destruct (hdr_inj _ _ _ _ _ _ Hl' Hl E) as (-> & -> & E2).
      destruct (app_inj_len d' _ d _ ltac:(lia) E2) as [-> ->]. reflexivity.
Qed.

Lemma decodes_len t out : decodes t out -> (length out <= length t)%nat.
Proof.
  induction 1 as [t Ht|l r Hl|l n d r out Hl Hn Hd Ho IH|l n d Hl Hd|l n d r Hl Hd Hr]; rewrite ?app_length; cbn [length]; try lia.
  pose proof (lenZ_dropZ 2 r ltac:(lia)). unfold lenZ in *. lia.
Qed.

Lemma decodes_yields {zl} t out : decodes t out -> exists after rexc, (rexc = false /\ yields (zl:=zl) rexc after None t out).
Proof.
  induction 1 as [t Ht|l r Hl|l n d r out Hl Hn Hd Ho IH|l n d Hl Hd|l n d r Hl Hd Hr]; try apply size_at_hdr in Hl.
  - exists [], false. split; [reflexivity|]. now apply y_plain.
  - exists r, false. split; [reflexivity|]. now apply yg_end.
  - destruct IH as (after & rexc & -> & Hy). exists after, false. split; [reflexivity|].
    apply (yg_chunk false after None l n d r d None out); auto. split; reflexivity.
  - exists [], false. split; [reflexivity|]. apply (yg_cut false [] None l n d d None); auto. split; reflexivity.
  - exists [], false. split; [reflexivity|]. now apply (yg_broken false [] l n d r).
Qed.

Lemma proper_yields {zl} rexc t out after : proper t out after -> yields (zl:=zl) rexc after None t out.
Proof.
  induction 1 as [l r Hl|l n d r out after Hl Hn Hd Ho IH]; apply size_at_hdr in Hl.
  - now apply yg_end.
  - apply (yg_chunk rexc after None l n d r d None out); auto. split; reflexivity.
Qed.

Lemma proper_len t out after : proper t out after -> (length out <= length t)%nat.
Proof. induction 1 as [l r Hl|l n d r out after Hl Hn Hd Ho IH]; rewrite ?app_length; cbn [length]; lia. Qed.

Lemma proper_or_fails {zl} m : forall t, (length t <= m)%nat ->
  (exists out after, proper t out after) \/ exists good, fails (zl:=zl) None t good /\ (length good <= length t)%nat.
Proof.
  induction m as [|m IH]; intros t Hm.
  { destruct t; [|cbn [length] in Hm; lia]. right. exists []. split; [|apply le_n]. apply f_plain. intros n (b & s & E & _). destruct b; discriminate. }
  destruct (size_line_dec t) as [H|(l & n & r & -> & Hl)].
  { right. exists []. split; [now apply f_plain|cbn [length]; lia]. }
  pose proof (size_at_hdr _ _ Hl) as Hh. pose proof Hh as (_ & _ & Hp).
  destruct (Z.eq_dec n 0) as [->|Hn].
  - destruct (crlf_cases r) as [(r2 & ->)|Hr]; [left; exists [], r2; now apply pr_last|].
    right. exists []. split; [|cbn [length]; lia]. exact (fg_broken None l 0 [] r Hh eq_refl Hr).
  - destruct (data_cases n r) as [Hc|(d & r2 & -> & Hd)].
    { right. exists []. split; [now apply (fg_cut None l n)|cbn [length]; lia]. }
    destruct (crlf_cases r2) as [(r3 & ->)|Hr].
    + destruct (IH r3) as [(out & after & Ho)|(good & Hg & Hgl)].
      { rewrite !app_length in Hm. unfold lenZ in Hp. lia. }
      * left. exists (d ++ out), after. now apply (pr_chunk l n).
      * right. exists (d ++ good). split; [|rewrite !app_length; lia].
        apply (fg_chunk None l n d r3 d None good); auto. split; reflexivity.
    + right. exists []. split; [|cbn [length]; lia]. now apply (fg_broken None l n).
Qed.

Lemma C99_any_input_pf :
  forall (zl : zenv) fuel sched data block,
  no_single sched -> enough fuel data -> 0 < block ->
  exists out, decodes data out /\ (forall out', decodes data out' -> out' = out)
    /\ forall calls, nonneg_calls calls -> full_lines calls ->
       fst (run_calls (br_ops raw_ops fuel) calls (ckr_new (zl:=zl) (raw_open data sched) block None false))
       = map Ok (fst (mem_calls calls out)).
Proof.
  intros zl fuel sched data block Hsc Hf Hb. destruct (decodes_total_len _ data (le_n _)) as (out & Ho).
  exists out. split; [exact Ho|]. split; [intros out' H'; exact (decodes_fun _ _ Ho _ H')|]. intros calls Hc Hl.
  destruct (decodes_yields (zl:=zl) _ _ Ho) as (after & rexc & -> & Hy).
  pose proof (fun s c (H : raw_RP (lenZ data) fuel s c) => raw_R_fuel _ _ _ _ (proj1 H)) as Hfu.
  assert (Hfo : enough fuel out) by (apply decodes_len in Ho; unfold enough in *; lia).
  destruct (ck_calls (zl:=zl) raw_ops fuel (raw_RP (lenZ data) fuel) (raw_paired _ _)
     (exact_short_line _ _ (raw_exact_lineP _ _)) Hfu false after (ckr_new (raw_open data sched) block None false) out calls) as (b & E & _); auto.
  2:{ now rewrite E. }
  apply (CI_new raw_ops fuel _ false after _ data); auto. now apply raw_RP_open.
Qed.

Lemma C99_raise_pf :
  forall (zl : zenv) fuel sched data block,
  no_single sched -> enough fuel data -> (3 <= fuel)%nat -> 0 < block ->
  (exists out after, proper data out after
     /\ fst (br_read raw_ops fuel None (ckr_new (zl:=zl) (raw_open data sched) block None true)) = Ok out)
  \/ ((forall out after, ~ proper data out after)
      /\ exists x, fst (br_read raw_ops fuel None (ckr_new (zl:=zl) (raw_open data sched) block None true)) = Err (ChunkedExn x)).
Proof.
  intros zl fuel sched data block Hsc Hf H3 Hb.
  pose proof (fun s c (H : raw_RP (lenZ data) fuel s c) => raw_R_fuel _ _ _ _ (proj1 H)) as Hfu.
  assert (Good : forall out after, proper data out after ->
     fst (br_read raw_ops fuel None (ckr_new (zl:=zl) (raw_open data sched) block None true)) = Ok out).
  { intros out after Ho.
    assert (Hfo : enough fuel out) by (apply proper_len in Ho; unfold enough in *; lia).
    destruct (ck_calls (zl:=zl) raw_ops fuel (raw_RP (lenZ data) fuel) (raw_paired _ _)
       (exact_short_line _ _ (raw_exact_lineP _ _)) Hfu true after (ckr_new (raw_open data sched) block None true) out []) as (b & E & _ & b2 & E2 & _).
    - apply (CI_new raw_ops fuel _ true after _ data); auto; [now apply raw_RP_open|now apply proper_yields].
    - constructor.
    - constructor.
    - injection E as <-. now rewrite E2. }
  destruct (proper_or_fails (zl:=zl) _ data (le_n _)) as [(out & after & Ho)|(good & Hg & Hgl)].
  - left. exists out, after. split; [exact Ho|now apply (Good out after)].
  - right.
    assert (exists x, fst (br_read raw_ops fuel None (ckr_new (zl:=zl) (raw_open data sched) block None true)) = Err (ChunkedExn x)) as Hx.
    { apply (CE_raises raw_ops fuel (raw_RP (lenZ data) fuel) (raw_paired _ _)
           (exact_short_line _ _ (raw_exact_lineP _ _)) Hfu _ good); [|exact I|exact I].
      apply (CE_new fuel _ _ data); auto; [now apply raw_RP_open|unfold enough in *; lia]. }
    split; [|exact Hx]. intros out after Ho. destruct Hx as (x & Hx). rewrite (Good _ _ Ho) in Hx. discriminate.
Qed.

Lemma C99_rfc_sizes_refuted_pf :
  exists data out fuel, (forall w p rest, chunked_body w p -> data <> w ++ rest) /\ enough fuel data
  /\ fst (br_read raw_ops fuel None (ckr_new (zl:=toy_z) (raw_open data []) 16384 None false)) = Ok out /\ out <> data.
Proof.
  exists (lit "-1" ++ crlf ++ crlf ++ lit "text"), (lit "text"), 60%nat.
  split; [|split; [unfold enough; cbn; lia|split; [vm_compute; reflexivity|discriminate]]].
  assert (Hm : forall l n x, size_line l n -> lit "-1" ++ crlf ++ crlf ++ lit "text" = l ++ x -> False).
  { intros l n x (hex & ext & -> & Hh & _) E. destruct (hex_number_chars _ _ Hh) as [Hf Hne].
    destruct hex as [|c hex]; [contradiction|]. inversion Hf as [|? ? Hc _]; subst.
    apply (f_equal (hd 0%N)) in E. assert (E2 : 45%N = c) by exact E. subst c. now vm_compute in Hc. }
  intros w p rest (w1 & l & -> & Hc & Hl) E. destruct Hc as [|l' d w p Hl' _ _ _].
  - cbn [app] in E. rewrite <- !app_assoc in E. exact (Hm _ _ _ Hl E).
  - rewrite <- !app_assoc in E. exact (Hm _ _ _ Hl' E).
Qed.
