(** * WriterProofs: lemmas about the record builder and the writer *)
From Coq Require Import String List ZArith NArith Bool Lia ZifyBool ZifyNat ZifyN.
From Verif Require Import PyBase Utf8 Codecs Headers Streams TimeUtils Loader Writer Facts
  StreamSpec HeaderSpec HeaderProofs SimProofs WriterSpec.
Import ListNotations.
Open Scope Z_scope.

Local Arguments name_eq : simpl never.

(** ** Header lists *)
Lemma value_of_hget name hs : value_of name hs = hget name hs.
Proof.
  unfold value_of. induction hs as [|[k v] t IH]; cbn; [reflexivity|].
  destruct (name_eq k name); cbn; [reflexivity|exact IH].
Qed.

Lemma occurs_app name a b : occurs name (a ++ b) = (occurs name a + occurs name b)%nat.
Proof. unfold occurs. now rewrite filter_app, app_length. Qed.
Lemma occurs_cons name k v (t : list header) :
  occurs name ((k, v) :: t) = ((if name_eq k name then 1 else 0) + occurs name t)%nat.
Proof. unfold occurs. cbn. now destruct (name_eq k name). Qed.

Lemma occurs_0 name hs : occurs name hs = 0%nat <-> Forall (fun h => ~ named name h) hs.
Proof.
  induction hs as [|[k v] t IH]; [now split|]. rewrite occurs_cons. split.
  - destruct (name_eq k name) eqn:E; [cbn; lia|]. intros H. constructor; [now apply name_eq_not|]. apply IH. cbn in H. lia.
  - intros H. inversion H as [|? ? H1 H2]. subst. apply name_eq_not in H1. cbn [fst] in H1. rewrite H1. apply IH in H2. now rewrite H2.
Qed.

Lemma name_eq_trans a b n : name_eq a n = true -> name_eq a b = name_eq n b.
Proof. unfold name_eq. rewrite leqb_eq. now intros ->. Qed.
Lemma name_eq_sym a b : name_eq a b = name_eq b a.
Proof.
  destruct (name_eq a b) eqn:E, (name_eq b a) eqn:F; try reflexivity.
  - unfold name_eq in *. rewrite leqb_eq in E. rewrite E, leqb_refl in F. discriminate.
  - unfold name_eq in *. rewrite leqb_eq in F. rewrite F, leqb_refl in E. discriminate.
Qed.

(** shape of a header list with respect to the last header of a name *)
Lemma last_named name (hs : list header) :
  (exists pre k v post, hs = pre ++ (k, v) :: post /\ name_eq k name = true /\ occurs name post = 0%nat)
  \/ occurs name hs = 0%nat.
Proof.
  induction hs as [|[k v] t IH]; [now right|].
  destruct IH as [(pre & k' & v' & post & -> & Hk & Hp)|H].
  - left. exists ((k, v) :: pre), k', v', post. now rewrite <- app_comm_cons.
  - destruct (name_eq k name) eqn:E.
    + left. exists [], k, v, t. now split.
    + right. rewrite occurs_cons, E, H. reflexivity.
Qed.

Lemma replace_cases name value s :
  (exists pre k v post, sh_headers s = pre ++ (k, v) :: post /\ name_eq k name = true /\ occurs name post = 0%nat
     /\ replace_header_ name value s = set_headers s (pre ++ (k, value) :: post))
  \/ (occurs name (sh_headers s) = 0%nat /\ replace_header_ name value s = set_headers s (sh_headers s ++ [(name, value)])).
Proof.
  destruct (last_named name (sh_headers s)) as [(pre & k & v & post & E & Hk & Hp)|H].
  - left. exists pre, k, v, post. split; [assumption|]. split; [assumption|]. split; [assumption|].
    unfold replace_header_. erewrite replace_header_last; [reflexivity|exact E|now apply name_eq_spec|now apply occurs_0].
  - right. split; [assumption|]. unfold replace_header_. rewrite replace_header_none; [reflexivity|now apply occurs_0].
Qed.
Lemma remove_cases name s :
  (exists pre k v post, sh_headers s = pre ++ (k, v) :: post /\ name_eq k name = true /\ occurs name post = 0%nat
     /\ remove_header_ name s = set_headers s (pre ++ post))
  \/ (occurs name (sh_headers s) = 0%nat /\ remove_header_ name s = s).
Proof.
  destruct (last_named name (sh_headers s)) as [(pre & k & v & post & E & Hk & Hp)|H].
  - left. exists pre, k, v, post. split; [assumption|]. split; [assumption|]. split; [assumption|].
    unfold remove_header_. erewrite remove_header_last; [reflexivity|exact E|now apply name_eq_spec|now apply occurs_0].
  - right. split; [assumption|]. unfold remove_header_. rewrite remove_header_none; [reflexivity|now apply occurs_0].
Qed.

Lemma hget_app_None name a b : occurs name a = 0%nat -> hget name (a ++ b) = hget name b.
Proof.
  induction a as [|[k v] t IH]; [reflexivity|]. rewrite occurs_cons. cbn. destruct (name_eq k name); [cbn; lia|]. intros H. now apply IH.
Qed.
Lemma hget_cons_ne name k v t : name_eq k name = false -> hget name ((k, v) :: t) = hget name t.
Proof. cbn. now intros ->. Qed.
Lemma hget_app_Some name a b v : hget name a = Some v -> hget name (a ++ b) = Some v.
Proof. induction a as [|[k w] t IH]; [discriminate|]. cbn. destruct (name_eq k name); auto. Qed.
Lemma hget_None_occurs name hs : hget name hs = None <-> occurs name hs = 0%nat.
Proof. split; intros H; [apply occurs_0; now apply hget_None_inv|apply hget_None; now apply occurs_0]. Qed.
Lemma hget_skip name a k v b : name_eq k name = false -> hget name (a ++ (k, v) :: b) = hget name (a ++ b).
Proof.
  intros H. induction a as [|[k' v'] t IH]; cbn; [now rewrite H|]. destruct (name_eq k' name); [reflexivity|exact IH].
Qed.

Lemma proto_replace name v s : sh_proto (replace_header_ name v s) = sh_proto s
  /\ sh_status (replace_header_ name v s) = sh_status s.
Proof.
  destruct (replace_cases name v s) as [(?&?&?&?&_&_&_&->)|[_ ->]]; now split.
Qed.
Lemma proto_remove name s : sh_proto (remove_header_ name s) = sh_proto s
  /\ sh_status (remove_header_ name s) = sh_status s.
Proof.
  destruct (remove_cases name s) as [(?&?&?&?&_&_&_&->)|[_ ->]]; now split.
Qed.

Lemma get_replace_same name v s : (occurs name (sh_headers s) <= 1)%nat -> get_header name (replace_header_ name v s) = Some v.
Proof.
  intros Ho. unfold get_header. destruct (replace_cases name v s) as [(pre & k & w & post & E & Hk & Hp & ->)|[H ->]]; cbn [set_headers sh_headers].
  - rewrite E, occurs_app, occurs_cons, Hk in Ho. rewrite hget_app_None by lia. cbn. now rewrite Hk.
  - rewrite hget_app_None by assumption. cbn. unfold name_eq. now rewrite leqb_refl.
Qed.
Lemma get_replace_other name n v s : name_eq name n = false -> get_header n (replace_header_ name v s) = get_header n s.
Proof.
  intros Hn. unfold get_header. destruct (replace_cases name v s) as [(pre & k & w & post & E & Hk & Hp & ->)|[H ->]]; cbn [set_headers sh_headers].
  - assert (Hkn : name_eq k n = false) by now rewrite (name_eq_trans _ n _ Hk).
    rewrite E, !hget_skip by assumption. reflexivity.
  - rewrite hget_skip by assumption. now rewrite app_nil_r.
Qed.
Lemma occurs_replace name n v s : occurs n (sh_headers (replace_header_ name v s)) =
  if name_eq name n then Nat.max 1 (occurs n (sh_headers s)) else occurs n (sh_headers s).
Proof.
  destruct (replace_cases name v s) as [(pre & k & w & post & E & Hk & Hp & ->)|[H ->]]; cbn [set_headers sh_headers].
  - rewrite E, !occurs_app, !occurs_cons. rewrite (name_eq_trans _ n _ Hk). destruct (name_eq name n); lia.
  - rewrite occurs_app, occurs_cons. destruct (name_eq name n) eqn:Ee.
    + assert (occurs n (sh_headers s) = occurs name (sh_headers s)).
      { unfold occurs. f_equal. apply filter_ext. intros [k v']. cbn. rewrite (name_eq_sym k n), (name_eq_sym k name). symmetry. now apply name_eq_trans. }
      change (occurs n []) with 0%nat. lia.
    + change (occurs n []) with 0%nat. lia.
Qed.
Lemma get_remove_other name n s : name_eq name n = false -> get_header n (remove_header_ name s) = get_header n s.
Proof.
  intros Hn. unfold get_header. destruct (remove_cases name s) as [(pre & k & w & post & E & Hk & Hp & ->)|[H ->]]; cbn [set_headers sh_headers]; [|reflexivity].
  assert (Hkn : name_eq k n = false) by now rewrite (name_eq_trans _ n _ Hk).
  rewrite E, !hget_skip by assumption. reflexivity.
Qed.
Lemma get_remove_same name s : (occurs name (sh_headers s) <= 1)%nat -> get_header name (remove_header_ name s) = None.
Proof.
  intros Ho. unfold get_header. destruct (remove_cases name s) as [(pre & k & w & post & E & Hk & Hp & ->)|[H ->]]; cbn [set_headers sh_headers].
  - rewrite E, occurs_app, occurs_cons, Hk in Ho. apply hget_None_occurs. rewrite occurs_app. lia.
  - now apply hget_None_occurs.
Qed.
Lemma occurs_remove name n s : (occurs n (sh_headers (remove_header_ name s)) <= occurs n (sh_headers s))%nat
  /\ (name_eq name n = false -> occurs n (sh_headers (remove_header_ name s)) = occurs n (sh_headers s)).
Proof.
  destruct (remove_cases name s) as [(pre & k & w & post & E & Hk & Hp & ->)|[H ->]]; cbn [set_headers sh_headers]; [|split; [lia|reflexivity]].
  rewrite E, !occurs_app, !occurs_cons. rewrite (name_eq_trans _ n _ Hk). destruct (name_eq name n); split; try lia; discriminate.
Qed.
Lemma get_add_other name n v s : name_eq name n = false -> get_header n (add_header name v s) = get_header n s.
Proof. intros H. unfold get_header, add_header. cbn [set_headers sh_headers]. rewrite hget_skip by assumption. now rewrite app_nil_r. Qed.
Lemma get_add_same name v s : get_header name s = None -> get_header name (add_header name v s) = Some v.
Proof.
  unfold get_header, add_header. cbn [set_headers sh_headers]. intros H. apply hget_None_occurs in H. rewrite hget_app_None by assumption.
  cbn. unfold name_eq. now rewrite leqb_refl.
Qed.
Lemma occurs_add name n v s : occurs n (sh_headers (add_header name v s)) = (occurs n (sh_headers s) + if name_eq name n then 1 else 0)%nat.
Proof. unfold add_header. cbn [set_headers sh_headers]. rewrite occurs_app, occurs_cons. change (occurs n []) with 0%nat. lia. Qed.

(** ** Payload streams *)
Definition ps_ok (p : pstream) : Prop := 0 <= py_pos p.

Lemma ps_rest_bytesio b : ps_rest (bytesio b) = b.
Proof. unfold ps_rest, bytesio. cbn [py_pos py_all]. now apply dropZ_0. Qed.
Lemma ps_rest_len p : (List.length (ps_rest p) <= List.length (py_all p))%nat.
Proof. unfold ps_rest. rewrite dropZ_skipn, skipn_length. lia. Qed.

Lemma ps_adv_rest p out rest sched : ps_ok p -> ps_rest p = out ++ rest ->
  ps_rest (ps_adv out sched p) = rest /\ ps_ok (ps_adv out sched p).
Proof.
  unfold ps_ok, ps_rest, ps_adv. cbn. intros H E. pose proof (lenZ_nonneg out). split; [|lia].
  rewrite Z.add_comm, <- dropZ_dropZ by lia. rewrite E. apply dropZ_app_exact.
Qed.

Lemma iter_stream_ok n p : ps_ok p -> (List.length (ps_rest p) < n)%nat ->
  exists bufs p', iter_stream n p = (Ok bufs, p') /\ concat bufs = ps_rest p /\ ps_rest p' = [] /\ ps_ok p'
    /\ py_all p' = py_all p /\ py_seek p' = py_seek p /\ (ps_rest p = [] -> bufs = [] /\ py_pos p' = py_pos p)
    /\ Forall (fun b => b <> []) bufs.
Proof.
  revert p. induction n as [|n IH]; intros p Hp Hn; [lia|].
  cbn [iter_stream]. unfold ps_read at 1. change (0 <? BUFF_SIZE) with true. cbv iota.
  destruct (match py_sched p with [] => (BUFF_SIZE, []) | x :: t => (Z.min BUFF_SIZE (Z.max 1 x), t) end) as [m sched] eqn:Em.
  assert (Hm : 0 < m).
  { destruct (py_sched p) as [|x t]; injection Em as <- _; unfold BUFF_SIZE; lia. }
  destruct (takeZ m (ps_rest p)) as [|c t] eqn:Et.
  - assert (Hr : ps_rest p = []).
    { destruct (ps_rest p) as [|c t]; [reflexivity|]. exfalso. apply (f_equal lenZ) in Et. rewrite lenZ_takeZ in Et by lia. rewrite lenZ_cons, lenZ_nil in Et.
      pose proof (lenZ_nonneg t). lia. }
    exists [], (ps_adv [] sched p). split; [reflexivity|].
    destruct (ps_adv_rest p [] (ps_rest p) sched Hp eq_refl) as [H1 H2].
    split; [now rewrite Hr|]. split; [now rewrite H1|]. split; [assumption|]. split; [reflexivity|]. split; [reflexivity|].
    split; [|constructor]. intros _. split; [reflexivity|]. unfold ps_adv. cbn [py_pos]. change (lenZ (@nil N)) with 0. lia.
  - pose proof (takeZ_dropZ m (ps_rest p)) as E. rewrite Et in E. symmetry in E.
    destruct (ps_adv_rest p (c :: t) (dropZ m (ps_rest p)) sched Hp E) as [H1 H2].
    destruct (IH (ps_adv (c :: t) sched p) H2) as (bufs & p' & E1 & E2 & E3 & E4 & E5 & E6 & E7 & E8).
    { rewrite H1. apply (f_equal (@List.length N)) in E. rewrite app_length in E. cbn in E. lia. }
    rewrite E1. exists ((c :: t) :: bufs), p'. split; [reflexivity|]. cbn [concat]. rewrite E2, H1. split; [symmetry; exact E|].
    split; [assumption|]. split; [assumption|]. split; [assumption|]. split; [assumption|]. split.
    + intros Hx. rewrite Hx in E. discriminate.
    + constructor; [discriminate|assumption].
Qed.

(** ** ensure_digest *)
Notation BD := (lit "WARC-Block-Digest").
Notation PD := (lit "WARC-Payload-Digest").
Notation CT := (lit "Content-Type").
Notation CL := (lit "Content-Length").

Definition need (name : str) (h : sah) : bool := negb (truthy (get_header name h)).
Definition add_if (b : bool) (n v : str) (h : sah) : sah := if b then add_header n v h else h.
Definition digest_headers (sha1 : bytes -> bytes) (nb np : bool) (pre content : bytes) (h : sah) : sah :=
  add_if nb BD (sha1_str sha1 (pre ++ content)) (add_if np PD (sha1_str sha1 content) h).

Section Ensure.
  Context (fuel : nat) (sha1 : bytes -> bytes).

  Lemma ensure_digest_ok f blk pay r pre :
    ps_ok (wr_stream r) -> (List.length (ps_rest (wr_stream r)) < fuel)%nat ->
    let nb := blk && need BD (wr_headers r) in
    let np := pay && (need PD (wr_headers r) && negb (no_payload_digest (wr_type r))) in
    let content := ps_rest (wr_stream r) in
    let temp := match wr_length r with None => true | Some _ => (nb || np) && negb (py_seek (wr_stream r)) end in
    block_prefix f nb r = (Ok pre, r) ->
    exists r', ensure_digest fuel sha1 f blk pay r = (Ok tt, r')
      /\ wr_type r' = wr_type r /\ wr_http r' = wr_http r /\ wr_ctype r' = wr_ctype r /\ wr_length r' = wr_length r
      /\ ps_rest (wr_stream r') = content /\ ps_ok (wr_stream r')
      /\ wr_headers r' = digest_headers sha1 nb np pre content (wr_headers r)
      /\ wr_plen r' = (if temp then Some (lenZ content) else wr_plen r)
      /\ (if temp then exists p, wr_orig r' = Some p /\ ps_rest p = [] /\ ps_ok p else wr_orig r' = wr_orig r)
      /\ py_seek (wr_stream r') = (temp || py_seek (wr_stream r)).
  Proof.
    intros Hp Hf nb np content temp Hpre. unfold ensure_digest.
    assert (Enp : pay && negb (truthy (get_header PD (wr_headers r)) || no_payload_digest (wr_type r)) = np).
    { unfold np, need. rewrite negb_orb. reflexivity. }
    rewrite Enp. change (blk && negb (truthy (get_header BD (wr_headers r)))) with nb.
    clear Enp. clearbody nb np.
    set (hl := match wr_length r with Some _ => true | None => false end).
    destruct (negb nb && negb np && hl) eqn:E0.
    { apply andb_true_iff in E0 as [E0 E1]. apply andb_true_iff in E0 as [Eb Ep].
      apply negb_true_iff in Eb, Ep. subst nb np. exists r. split; [reflexivity|].
      assert (temp = false). { unfold temp, hl in *. destruct (wr_length r); [reflexivity|discriminate]. }
      rewrite H. cbn [orb]. repeat (split; [first [reflexivity|assumption]|]). reflexivity. }
    rewrite Hpre.
    destruct (iter_stream_ok fuel (wr_stream r) Hp Hf) as (bufs & p' & E1 & E2 & E3 & E4 & E5 & E6 & E7 & E8).
    rewrite E1, E2. fold content.
    assert (Et : negb (hl && py_seek (wr_stream r)) = temp).
    { unfold temp, hl in *. destruct (wr_length r); cbn; [|reflexivity]. destruct nb, np; try discriminate; reflexivity. }
    rewrite Et.
    eexists. split; [reflexivity|]. unfold digest_headers, add_if.
    destruct np, nb, temp; cbn;
      (split; [reflexivity|]); (split; [reflexivity|]); (split; [reflexivity|]); (split; [reflexivity|]);
      (split; [first [reflexivity|apply ps_rest_bytesio|unfold ps_rest; cbn [py_pos py_all]; rewrite E5; reflexivity]|]);
      (split; [first [exact Hp|unfold ps_ok; cbn; lia]|]); (split; [reflexivity|]); (split; [reflexivity|]);
      (split; [first [reflexivity|exists p'; split; [reflexivity|split; assumption]]|]); first [reflexivity|assumption].
  Qed.

  Lemma sah_bool_ascii f h x h' : to_ascii_bytes f h = (x, h') -> sah_bool h' = sah_bool h
    /\ sh_proto h' = sh_proto h /\ sh_status h' = sh_status h.
  Proof.
    unfold to_ascii_bytes. destruct (ascii_encode (to_str f h)).
    - intros E. injection E as _ <-. now split.
    - assert (H : sah_bool (percent_encode h) = sah_bool h).
      { unfold sah_bool, percent_encode. cbn. now destruct (sh_headers h). }
      destruct (ascii_encode (to_str f (percent_encode h))); intros E; injection E as _ <-; now split.
  Qed.

  Lemma to_ascii_ne f h b h' : to_ascii_bytes f h = (Ok b, h') -> b <> [].
  Proof.
    assert (N : forall x : bytes, x ++ crlf <> []) by (intros [|]; discriminate).
    unfold to_ascii_bytes. destruct (ascii_encode (to_str f h)); [|destruct (ascii_encode (to_str f (percent_encode h))); [|discriminate]];
      intros E; injection E as <- _; apply N.
  Qed.

  (** what the record looks like when it is serialised *)
  Definition w_base (r : wrec) : sah :=
    match wr_length r with None => wr_headers (strip_for_unknown r) | Some _ => wr_headers r end.
  Definition w_nb (r : wrec) : bool := need BD (w_base r).
  Definition w_np (r : wrec) : bool := need PD (w_base r) && negb (no_payload_digest (wr_type r)).
  Definition w_temp (r : wrec) : bool :=
    match wr_length r with None => true | Some _ => (w_nb r || w_np r) && negb (py_seek (wr_stream r)) end.
  Definition w_plen (r : wrec) : option Z :=
    if w_temp r then Some (lenZ (ps_rest (wr_stream r))) else wr_plen r.
  Definition w_only (r : wrec) : bool := otype_is (wr_type r) "revisit".
  Definition w_len (hb : bytes) (r : wrec) : option Z :=
    if osah_bool (wr_http r) && (0 <=? opt_plen (w_plen r))
    then Some (lenZ hb + (if w_only r then 0 else opt_plen (w_plen r)))
    else match wr_length r with None => w_plen r | Some n => Some n end.
  Definition w_ctype (r : wrec) (h : sah) : sah :=
    match wr_ctype r with Some c => replace_header_ CT c h | None => h end.
  Definition w_final (hb : bytes) (r : wrec) : sah :=
    replace_header_ CL (len_str (w_len hb r))
      (w_ctype r (digest_headers sha1 (w_nb r) (w_np r) hb (ps_rest (wr_stream r)) (w_base r))).

  Lemma write_plain_fwd f r hb :
    ps_ok (wr_stream r) -> (List.length (ps_rest (wr_stream r)) < fuel)%nat ->
    http_block f (wr_http r) hb ->
    match to_bytes None (w_final hb r) with
    | Err e => exists r', write_plain fuel sha1 f r = (Err e, [], r') /\ wr_headers r' = w_final hb r
    | Ok head => exists ws r', write_plain fuel sha1 f r = (Ok tt, ws, r')
      /\ wr_headers r' = w_final hb r
      /\ concat ws = head ++ hb ++ (if w_only r then [] else ps_rest (wr_stream r)) ++ crlf ++ crlf
      /\ wr_type r' = wr_type r /\ wr_ctype r' = wr_ctype r
      /\ (exists http', wr_http r' = http' /\ osah_bool http' = osah_bool (wr_http r)
             /\ match wr_http r with
                | Some h => if sah_bool h then exists h', to_ascii_bytes f h = (Ok hb, h') /\ http' = Some (set_buff h' (Some hb))
                            else http' = Some h
                | None => http' = None end)
      /\ wr_length r' = w_len hb r /\ wr_plen r' = w_plen r
      /\ (w_only r = false -> ps_rest (wr_stream r') = [] \/ (w_temp r = false /\ wr_orig r <> None))
      /\ (w_only r = true -> ps_rest (wr_stream r') = ps_rest (wr_stream r))
      /\ (wr_orig r = None -> ps_ok (wr_stream r'))
    end.
  Proof.
    intros Hp Hf Hhb. unfold write_plain.
    (* first step *)
    assert (S1 : exists r1, (match wr_http r with
      | Some h => if sah_bool h then
                    let (x, h') := compute_headers_buffer f h in (x, w_set_http (Some h') r)
                  else (Ok tt, r)
      | None => (Ok tt, r)
      end) = (Ok tt, r1)
      /\ r1 = w_set_http (wr_http r1) r
            /\ (wr_http r1) = (match wr_http r with Some h => if sah_bool h then Some (set_buff (snd (to_ascii_bytes f h)) (Some hb)) else Some h | None => None end)
            /\ osah_bool (wr_http r1) = osah_bool (wr_http r)
            /\ (osah_bool (wr_http r) = true -> hb <> [])
            /\ (osah_bool (wr_http r) = false -> hb = [])).
    { unfold http_block in Hhb. destruct (wr_http r) as [h|] eqn:Eh.
      - destruct (sah_bool h) eqn:Eb.
        + unfold compute_headers_buffer. destruct (to_ascii_bytes f h) as [[b|e] h'] eqn:Ea; [|discriminate].
          injection Hhb as ->. eexists. split; [reflexivity|]. split; [reflexivity|]. split; [reflexivity|]. split.
          { cbn. rewrite Eb. destruct (sah_bool_ascii _ _ _ _ Ea) as (H & _ & _). rewrite Eb in H. exact H. }
          split; [intros _; eapply to_ascii_ne; eassumption|]. cbn. rewrite Eb. discriminate.
        + exists r. split; [reflexivity|]. split; [destruct r; reflexivity|]. split; [exact Eh|]. split; [rewrite Eh; reflexivity|].
          split; [cbn; rewrite Eb; discriminate|auto].
      - exists r. split; [reflexivity|]. split; [destruct r; reflexivity|].
        split; [exact Eh|]. split; [now rewrite Eh|]. split; [discriminate|auto]. }
    destruct S1 as (r1 & -> & Er1 & Eh1 & Eb1 & Hne & Hnil).
    assert (Q : wr_type r1 = wr_type r /\ wr_headers r1 = wr_headers r /\ wr_stream r1 = wr_stream r /\ wr_orig r1 = wr_orig r
                /\ wr_ctype r1 = wr_ctype r /\ wr_length r1 = wr_length r /\ wr_plen r1 = wr_plen r).
    { rewrite Er1. cbn. repeat split. }
    destruct Q as (Q1 & Q2 & Q3 & Q4 & Q5 & Q6 & Q7). clear Er1.
    (* the prefix *)
    assert (PRE : forall b r2, wr_http r2 = wr_http r1 -> exists pre, block_prefix f b r2 = (Ok pre, r2) /\ (b = true -> pre = hb)).
    { intros b r2 E. unfold block_prefix. rewrite E.
      destruct (wr_http r1) as [h1|] eqn:E1.
      - destruct b; cbn [andb].
        + destruct (sah_bool h1) eqn:E2.
          * cbn in Eb1. rewrite E2 in Eb1. destruct (wr_http r) as [h|] eqn:E3; [|discriminate].
            cbn in Eb1. rewrite <- Eb1 in Eh1. injection Eh1 as Eh1. subst h1. cbn [sh_buff set_buff].
            destruct hb as [|c t]; [exfalso; apply (Hne (eq_sym Eb1)); reflexivity|]. eexists; split; [reflexivity|reflexivity].
          * exists []. split; [reflexivity|]. intros _. cbn in Eb1. rewrite E2 in Eb1. symmetry in Eb1. now rewrite (Hnil Eb1).
        + exists []. split; [reflexivity|discriminate].
      - exists []. split; [reflexivity|]. intros _. cbn in Eb1. symmetry in Eb1. now rewrite (Hnil Eb1). }
    (* second step *)
    assert (S2 : exists r2, (match wr_length r1 with
          | None =>
              match ensure_digest fuel sha1 f true true (strip_for_unknown r1) with
              | (Ok _, r) => (Ok tt, w_set_length (wr_plen r) r)
              | (Err e, r) => (Err e, r)
              end
          | Some _ => ensure_digest fuel sha1 f true true r1
          end) = (Ok tt, r2)
       /\ wr_type r2 = wr_type r /\ wr_http r2 = wr_http r1 /\ wr_ctype r2 = wr_ctype r
       /\ wr_length r2 = (match wr_length r with None => w_plen r | Some n => Some n end)
       /\ ps_rest (wr_stream r2) = ps_rest (wr_stream r) /\ ps_ok (wr_stream r2)
       /\ wr_headers r2 = digest_headers sha1 (w_nb r) (w_np r) hb (ps_rest (wr_stream r)) (w_base r)
       /\ wr_plen r2 = w_plen r
       /\ (if w_temp r then exists p, wr_orig r2 = Some p /\ ps_rest p = [] /\ ps_ok p else wr_orig r2 = wr_orig r)).
    { destruct (wr_length r) as [n|] eqn:El; rewrite Q6.
      - destruct (PRE (true && need BD (wr_headers r1)) r1 eq_refl) as (pre & P1 & P2).
        destruct (ensure_digest_ok f true true r1 pre) as (r2 & D0 & D1 & D2 & D3 & D4 & D5 & D6 & D7 & D8 & D9 & D10).
        { now rewrite Q3. } { now rewrite Q3. } { exact P1. }
        exists r2. split; [exact D0|]. split; [congruence|]. split; [congruence|]. split; [congruence|]. split; [congruence|].
        split; [congruence|]. split; [exact D6|]. unfold w_temp, w_plen, w_temp, w_nb, w_np, w_base. rewrite El.
        split.
        { rewrite D7, Q2, Q3, Q1. cbn [andb]. unfold digest_headers.
          rewrite Q2 in P2. destruct (need BD (wr_headers r)); [rewrite P2 by reflexivity|]; reflexivity. }
        split.
        { rewrite D8, Q6, Q2, Q1, Q3, Q7. reflexivity. }
        rewrite Q6, Q2, Q1, Q3, Q4 in D9. exact D9.
      - set (rs := strip_for_unknown r1) in *.
        assert (SQ : wr_type rs = wr_type r /\ wr_http rs = wr_http r1 /\ wr_stream rs = wr_stream r /\ wr_orig rs = wr_orig r
                     /\ wr_ctype rs = wr_ctype r /\ wr_length rs = None /\ wr_headers rs = wr_headers (strip_for_unknown r)).
        { unfold rs, strip_for_unknown. cbn. rewrite Q1, Q2. repeat split; assumption. }
        destruct SQ as (s1 & s2 & s3 & s4 & s5 & s6 & s7). clearbody rs.
        destruct (PRE (true && need BD (wr_headers rs)) rs s2) as (pre & P1 & P2).
        destruct (ensure_digest_ok f true true rs pre) as (r2 & D0 & D1 & D2 & D3 & D4 & D5 & D6 & D7 & D8 & D9 & D10).
        { now rewrite s3. } { now rewrite s3. } { exact P1. }
        rewrite D0. exists (w_set_length (wr_plen r2) r2). split; [reflexivity|]. cbn.
        split; [congruence|]. split; [congruence|]. split; [congruence|].
        unfold w_temp, w_plen, w_temp, w_nb, w_np, w_base. rewrite El. rewrite s6 in D8, D9.
        split; [now rewrite D8, s3|]. split; [congruence|]. split; [assumption|].
        split.
        { rewrite D7, s7, s3, s1. cbn [andb]. unfold digest_headers.
          rewrite s7 in P2. destruct (need BD (wr_headers (strip_for_unknown r))); [rewrite P2 by reflexivity|]; reflexivity. }
        split; [now rewrite D8, s3|]. exact D9. }
    destruct S2 as (r2 & -> & U1 & U2 & U3 & U4 & U5 & U6 & U7 & U8 & U9).
    (* content type *)
    set (r3 := match wr_ctype r2 with
               | Some c => w_set_headers (replace_header_ CT c (wr_headers r2)) r2
               | None => r2
               end).
    assert (V : wr_type r3 = wr_type r /\ wr_http r3 = wr_http r1 /\ wr_ctype r3 = wr_ctype r /\ wr_length r3 = wr_length r2
      /\ wr_stream r3 = wr_stream r2 /\ wr_headers r3 = w_ctype r (wr_headers r2) /\ wr_plen r3 = w_plen r /\ wr_orig r3 = wr_orig r2).
    { unfold r3, w_ctype. rewrite U3. destruct (wr_ctype r) eqn:Ec; cbn; repeat split; congruence. }
    destruct V as (V1 & V2 & V3 & V4 & V5 & V6 & V7 & V8). clearbody r3.
    (* header bytes *)
    assert (HB : (match wr_http r3 with
                  | Some h => if sah_bool h then Some (match sh_buff h with Some b => b | None => [] end) else None
                  | None => None end) = if osah_bool (wr_http r) then Some hb else None).
    { rewrite V2, <- Eb1. destruct (wr_http r1) as [h1|] eqn:E1; [|reflexivity]. cbn.
      destruct (sah_bool h1) eqn:E2; [|reflexivity]. cbn in Eb1. rewrite E2 in Eb1. destruct (wr_http r) as [h|] eqn:E3; [|discriminate].
      cbn in Eb1. rewrite <- Eb1 in Eh1. injection Eh1 as Eh1. subst h1. reflexivity. }
    rewrite HB. clear HB.
    set (r4 := match (if osah_bool (wr_http r) then Some hb else None) with
               | Some b => if 0 <=? opt_plen (wr_plen r3) then
                           w_set_length (Some (lenZ b + (if otype_is (wr_type r3) "revisit" then 0 else opt_plen (wr_plen r3)))) r3
                         else r3
               | None => r3 end).
    assert (W : wr_type r4 = wr_type r /\ wr_http r4 = wr_http r1 /\ wr_ctype r4 = wr_ctype r /\ wr_length r4 = w_len hb r
      /\ wr_stream r4 = wr_stream r2 /\ wr_headers r4 = w_ctype r (wr_headers r2) /\ wr_plen r4 = w_plen r /\ wr_orig r4 = wr_orig r2).
    { unfold r4, w_len, w_only. rewrite V7, V1. destruct (osah_bool (wr_http r)); cbn [andb].
      - destruct (0 <=? opt_plen (w_plen r)); cbn; repeat split; congruence.
      - repeat split; congruence. }
    destruct W as (W1 & W2 & W3 & W4 & W5 & W6 & W7 & W8). rewrite V1. clearbody r4. clear r3 V1 V2 V3 V4 V5 V6 V7 V8.
    set (r5 := w_set_headers (replace_header_ CL (len_str (wr_length r4)) (wr_headers r4)) r4).
    assert (X : wr_headers r5 = w_final hb r).
    { unfold r5, w_final. cbn. now rewrite W4, W6, U7. }
    assert (X' : wr_type r5 = wr_type r /\ wr_http r5 = wr_http r1 /\ wr_ctype r5 = wr_ctype r /\ wr_length r5 = w_len hb r
      /\ wr_stream r5 = wr_stream r2 /\ wr_plen r5 = w_plen r /\ wr_orig r5 = wr_orig r2) by (unfold r5; cbn; repeat split; assumption).
    clearbody r5. destruct X' as (X1 & X2 & X3 & X4 & X5 & X6 & X7). rewrite X.
    destruct (to_bytes None (w_final hb r)) as [head|e] eqn:Ehd; [|eexists; split; [reflexivity|exact X]].
    change (otype_is (wr_type r) "revisit") with (w_only r).
    assert (HX : forall rr, wr_http rr = wr_http r1 -> exists http', wr_http rr = http' /\ osah_bool http' = osah_bool (wr_http r)
             /\ match wr_http r with
                | Some h => if sah_bool h then exists h', to_ascii_bytes f h = (Ok hb, h') /\ http' = Some (set_buff h' (Some hb))
                            else http' = Some h
                | None => http' = None end).
    { intros rr E. exists (wr_http r1). split; [exact E|]. split; [exact Eb1|]. clear E. unfold http_block in Hhb.
      destruct (wr_http r) as [h|] eqn:E1; [|exact Eh1]. destruct (sah_bool h); [|exact Eh1].
      destruct (to_ascii_bytes f h) as [x h']. cbn in Hhb, Eh1. subst x. exists h'. now split. }
    set (HW := head :: match (if osah_bool (wr_http r) then Some hb else None) with Some b => [b] | None => [] end).
    assert (CW : concat HW = head ++ hb).
    { unfold HW. destruct (osah_bool (wr_http r)) eqn:Eo; cbn; [now rewrite app_nil_r|]. now rewrite Hnil. }
    destruct (w_only r) eqn:Eo.
    - eexists _, _. split; [reflexivity|]. split; [exact X|].
      split. { transitivity (concat (HW ++ [crlf ++ crlf])); [reflexivity|]. rewrite concat_app, CW, <- app_assoc. reflexivity. }
      split; [exact X1|]. split; [exact X3|]. split; [apply HX; exact X2|]. split; [exact X4|]. split; [exact X6|].
      split; [discriminate|]. split; [intros _; now rewrite X5|]. intros _. now rewrite X5.
    - rewrite X5. destruct (iter_stream_ok fuel (wr_stream r2) U6) as (bufs & p' & E1 & E2 & E3 & E4 & E5 & E6 & E7 & E8).
      { now rewrite U5. }
      rewrite E1. eexists _, _. split; [reflexivity|].
      split. { rewrite X7. destruct (wr_orig r2); exact X. }
      split.
      { transitivity (concat (HW ++ (bufs ++ [crlf ++ crlf]))); [reflexivity|].
        rewrite concat_app, CW, concat_app, E2, U5, <- !app_assoc. reflexivity. }
      rewrite X7. split; [destruct (wr_orig r2); exact X1|]. split; [destruct (wr_orig r2); exact X3|].
      split; [destruct (wr_orig r2); apply HX; exact X2|]. split; [destruct (wr_orig r2); exact X4|]. split; [destruct (wr_orig r2); exact X6|].
      split; [|split; [discriminate|]].
      + intros _. destruct (w_temp r).
        * destruct U9 as (p & -> & Hr & _). left. exact Hr.
        * rewrite U9. destruct (wr_orig r); [right; split; [reflexivity|discriminate]|left; exact E3].
      + intros Ho. destruct (w_temp r).
        * destruct U9 as (p & -> & _ & Hr). exact Hr.
        * rewrite U9, Ho. exact E4.
  Qed.

  Lemma write_plain_http f r ws r' : write_plain fuel sha1 f r = (Ok tt, ws, r') -> exists hb, http_block f (wr_http r) hb.
  Proof.
    unfold write_plain, http_block. destruct (wr_http r) as [h|]; [|intros _; now exists []]. destruct (sah_bool h); [|intros _; now exists []].
    unfold compute_headers_buffer. destruct (to_ascii_bytes f h) as [[b|e] h']; [intros _; now exists b|discriminate].
  Qed.

  Lemma write_plain_ok f r ws r' :
    ps_ok (wr_stream r) -> (List.length (ps_rest (wr_stream r)) < fuel)%nat ->
    write_plain fuel sha1 f r = (Ok tt, ws, r') ->
    exists hb head, http_block f (wr_http r) hb
      /\ to_bytes None (w_final hb r) = Ok head
      /\ wr_headers r' = w_final hb r
      /\ concat ws = head ++ hb ++ (if w_only r then [] else ps_rest (wr_stream r)) ++ crlf ++ crlf
      /\ wr_type r' = wr_type r /\ wr_ctype r' = wr_ctype r
      /\ (exists http', wr_http r' = http' /\ osah_bool http' = osah_bool (wr_http r)
             /\ match wr_http r with
                | Some h => if sah_bool h then exists h', to_ascii_bytes f h = (Ok hb, h') /\ http' = Some (set_buff h' (Some hb))
                            else http' = Some h
                | None => http' = None end)
      /\ wr_length r' = w_len hb r /\ wr_plen r' = w_plen r
      /\ (w_only r = false -> ps_rest (wr_stream r') = [] \/ (w_temp r = false /\ wr_orig r <> None))
      /\ (w_only r = true -> ps_rest (wr_stream r') = ps_rest (wr_stream r))
      /\ (wr_orig r = None -> ps_ok (wr_stream r')).
  Proof.
    intros Hp Hf E. destruct (write_plain_http _ _ _ _ E) as (hb & Hhb). pose proof (write_plain_fwd f r hb Hp Hf Hhb) as W.
    destruct (to_bytes None (w_final hb r)) as [head|e] eqn:Eh.
    - destruct W as (ws' & r'' & E' & W). rewrite E in E'. injection E' as <- <-. exists hb, head. auto.
    - destruct W as (r'' & E' & _). rewrite E in E'. discriminate.
  Qed.
End Ensure.

(** ** create_warc_record *)
Definition ps_in (p : pstream) : Prop := 0 <= py_pos p <= lenZ (py_all p).
Definition ps_R (all : bytes) (p : pstream) (c : bytes) : Prop :=
  py_all p = all /\ ps_in p /\ ps_rest p = c.

Lemma ps_in_len p : ps_in p -> lenZ (ps_rest p) = lenZ (py_all p) - py_pos p.
Proof. intros [H1 H2]. unfold ps_rest. rewrite lenZ_dropZ by assumption. lia. Qed.
Lemma ps_in_ok p : ps_in p -> ps_ok p.
Proof. intros [H _]. exact H. Qed.

Lemma line_of_None c : line_of None c = take_line c.
Proof. reflexivity. Qed.

Lemma ps_reads_lines all : reads_lines (o_readline ps_ops None) (ps_R all).
Proof.
  intros p c (Ha & Hi & Hr). cbn. unfold ps_readline. rewrite line_of_None, Hr. eexists. split; [reflexivity|].
  destruct (ps_adv_rest p (take_line c) (drop_line c) (py_sched p)) as [H1 H2]; [now apply ps_in_ok|now rewrite take_drop_line|].
  split; [exact Ha|]. split; [|exact H1]. unfold ps_in, ps_adv in *. cbn. pose proof (ps_in_len p Hi) as L. rewrite Hr in L.
  pose proof (take_drop_line c) as T. apply (f_equal lenZ) in T. rewrite lenZ_app in T. pose proof (lenZ_nonneg (take_line c)).
  pose proof (lenZ_nonneg (drop_line c)). lia.
Qed.

Definition ps_same (a b : pstream) : Prop := py_all a = py_all b /\ py_pos a = py_pos b.
Lemma ps_same_rest a b : ps_same a b -> ps_rest a = ps_rest b.
Proof. unfold ps_same, ps_rest. intros [-> ->]. reflexivity. Qed.
Lemma ps_same_readline a b : ps_same a b -> same ps_same (o_readline ps_ops None a) (o_readline ps_ops None b).
Proof.
  intros H. cbn. unfold ps_readline. rewrite (ps_same_rest a b H). destruct H as [H1 H2]. split; [reflexivity|]. cbn. split; cbn; [assumption|lia].
Qed.

(** what load_http_headers does to a payload stream *)
Lemma load_http_ok fuel v t uri len p h p' : ps_in p -> (List.length (ps_rest p) + 3 <= fuel)%nat ->
  load_http_headers ps_ops fuel v t uri len p = (Ok h, p') ->
  py_all p' = py_all p /\ ps_in p'
  /\ exists blk, ps_rest p = blk ++ ps_rest p'
     /\ (h = None -> blk = []) /\ (h <> None -> header_block blk (ps_rest p')).
Proof.
  intros Hi Hf. unfold load_http_headers.
  assert (NOP : forall q, (Ok None, p) = (Ok h, q) -> py_all q = py_all p /\ ps_in q
     /\ exists blk, ps_rest p = blk ++ ps_rest q /\ (h = None -> blk = []) /\ (h <> None -> header_block blk (ps_rest q))).
  { intros q E. injection E as <- <-. split; [reflexivity|]. split; [assumption|]. exists []. split; [reflexivity|]. split; [reflexivity|]. intros X. now destruct X. }
  destruct (match len with Some 0 => true | _ => false end); [apply NOP|].
  destruct (negb (is_http_record t)); [apply NOP|]. destruct uri as [u|]; [|discriminate].
  destruct (negb (is_http_uri u)); [apply NOP|].
  assert (PA : forall pl, forall x q, parse (o_readline ps_ops None) fuel (mk_parser pl v) None p = (x, q) ->
     match x with
     | Ok h' => py_all q = py_all p /\ ps_in q /\ exists blk, ps_rest p = blk ++ ps_rest q /\ header_block blk (ps_rest q)
     | Err EOFError => py_all q = py_all p /\ ps_in q /\ ps_rest p = [] /\ ps_rest q = []
     | _ => True
     end).
  { intros pl x q E. destruct (parse_any _ _ (ps_reads_lines (py_all p)) fuel (mk_parser pl v) p (ps_rest p)) as [(Hc & s' & E' & HR)|[(h' & s' & rest & E' & HR & Hu & _)|(s' & E' & _)]].
    { split; [reflexivity|]. split; [assumption|reflexivity]. } { assumption. }
    - rewrite E in E'. injection E' as -> ->. destruct HR as (? & ? & ?). auto.
    - rewrite E in E'. injection E' as -> ->. destruct HR as (? & ? & Hr). split; [assumption|]. split; [assumption|].
      apply upto_blank_block in Hu as (blk & Eb & Hb). exists blk. rewrite Hr. auto.
    - rewrite E in E'. injection E' as -> ->. exact I. }
  destruct (otype_is t "request").
  - specialize (PA HTTP_VERBS). destruct (parse _ fuel (mk_parser HTTP_VERBS v) None p) as [x q]. specialize (PA x q eq_refl).
    destruct x as [h'|e]; [|discriminate]. intros E. injection E as <- <-. destruct PA as (A & B & blk & C & D).
    split; [assumption|]. split; [assumption|]. exists blk. split; [assumption|]. split; [discriminate|auto].
  - specialize (PA HTTP_TYPES). destruct (parse _ fuel (mk_parser HTTP_TYPES v) None p) as [x q]. specialize (PA x q eq_refl).
    destruct x as [h'|e].
    + intros E. injection E as <- <-. destruct PA as (A & B & blk & C & D).
      split; [assumption|]. split; [assumption|]. exists blk. split; [assumption|]. split; [discriminate|auto].
    + destruct e; try discriminate. destruct (otype_is t "revisit"); [|discriminate].
      intros E. injection E as <- <-. destruct PA as (A & B & C & D). split; [assumption|]. split; [assumption|].
      exists []. split; [rewrite C, D; reflexivity|]. split; [reflexivity|]. intros X. now destruct X.
Qed.

Section Create.
  Context (fuel : nat) (sha1 : bytes -> bytes).

  (** the headers before any digest is added, and the content type *)
  Definition c_headers (version uuid now : str) (uri : option str) (rec_type : str) (hdict : list header) (whdrs : option sah) : sah :=
    if osah_bool whdrs then match whdrs with Some h => h | None => sah_new [] [] [] end
    else init_warc_headers version uuid now uri rec_type hdict.
  Definition c_ctype (ctype rec_type : str) (wh : sah) : str :=
    if is_nil ctype then
      match get_header CT wh with Some ((_ :: _) as c) => c | _ => default_ctype rec_type end
    else ctype.
  Definition c_np (rec_type : str) (wh : sah) : bool := need PD wh && negb (no_payload_digest (Some rec_type)).

  Lemma create_ok version uuid now f uri rec_type payload length ctype hdict whdrs http r :
    match payload with Some p => ps_in p /\ (List.length (ps_rest p) + 3 <= fuel)%nat | None => (0 < fuel)%nat end ->
    create_warc_record fuel sha1 version uuid now f uri rec_type payload length ctype hdict whdrs http = Ok r ->
    let wh := c_headers version uuid now uri rec_type hdict whdrs in
    exists http' p' len',
      match payload with
      | None => http' = http /\ p' = bytesio [] /\ len' = Some 0
      | Some p =>
          if osah_bool http then http' = http /\ p' = p /\ len' = length
          else load_http_headers ps_ops fuel true (Some rec_type) uri length p = (Ok http', p')
               /\ len' = (if osah_bool http' then match length with Some n => Some (n - py_pos p') | None => None end else length)
      end
      /\ wr_type r = Some rec_type /\ wr_http r = http' /\ wr_ctype r = Some (c_ctype ctype rec_type wh) /\ wr_length r = len'
      /\ ps_rest (wr_stream r) = ps_rest p' /\ ps_ok (wr_stream r)
      /\ wr_headers r = digest_headers sha1 false (c_np rec_type wh) [] (ps_rest p') wh
      /\ wr_plen r = (if match len' with None => true | Some _ => c_np rec_type wh && negb (py_seek p') end
                      then Some (lenZ (ps_rest p')) else len')
      /\ ps_in p'.
  Proof.
    intros Hp. unfold create_warc_record. cbv zeta. set (wh := c_headers version uuid now uri rec_type hdict whdrs).
    fold (c_headers version uuid now uri rec_type hdict whdrs). fold wh. fold (c_ctype ctype rec_type wh).
    set (step1 := match payload with Some p => _ | None => _ end).
    assert (S : forall x, step1 = Ok x -> exists http' p' len', x = (http', p', len') /\
      match payload with
      | None => http' = http /\ p' = bytesio [] /\ len' = Some 0
      | Some p =>
          if osah_bool http then http' = http /\ p' = p /\ len' = length
          else load_http_headers ps_ops fuel true (Some rec_type) uri length p = (Ok http', p')
               /\ len' = (if osah_bool http' then match length with Some n => Some (n - py_pos p') | None => None end else length)
      end /\ ps_in p' /\ (List.length (ps_rest p') < fuel)%nat).
    { intros x Ex. unfold step1 in Ex. destruct payload as [p|].
      - destruct Hp as [Hi Hf]. destruct (osah_bool http).
        + injection Ex as <-. exists http, p, length. split; [reflexivity|]. split; [auto|]. split; [assumption|lia].
        + destruct (load_http_headers ps_ops fuel true (Some rec_type) uri length p) as [[h|e] p'] eqn:E; [|discriminate].
          injection Ex as <-. exists h, p', (if osah_bool h then match length with Some n => Some (n - py_pos p') | None => None end else length).
          split; [reflexivity|]. split; [auto|].
          destruct (load_http_ok _ _ _ _ _ _ _ _ Hi Hf E) as (A & B & blk & C & _). split; [assumption|].
          apply (f_equal (@List.length N)) in C. rewrite app_length in C. lia.
      - injection Ex as <-. exists http, (bytesio []), (Some 0). split; [reflexivity|]. split; [auto|].
        split; [unfold ps_in; cbn; lia|]. rewrite ps_rest_bytesio. cbn. assumption. }
    destruct step1 as [x|e]; [|discriminate]. destruct (S x eq_refl) as (http' & p' & len' & -> & Hc & Hi & Hf). clear S.
    set (r0 := mk_wrec (Some rec_type) wh p' None http' (Some (c_ctype ctype rec_type wh)) len' len').
    destruct (ensure_digest_ok fuel sha1 f false true r0 []) as (r' & D0 & D1 & D2 & D3 & D4 & D5 & D6 & D7 & D8 & D9 & D10).
    { now apply ps_in_ok. } { exact Hf. } { unfold block_prefix. cbn. destruct http'; reflexivity. }
    rewrite D0. intros E. injection E as <-. exists http', p', len'. split; [exact Hc|].
    split; [exact D1|]. split; [exact D2|]. split; [exact D3|]. split; [exact D4|]. split; [exact D5|]. split; [exact D6|].
    split; [exact D7|]. split; [|exact Hi]. rewrite D8. cbn [wr_length r0 wr_stream wr_plen]. reflexivity.
  Qed.

  (** the record's own idea of its length is right *)
  Definition len_ok (r : wrec) : Prop :=
    match wr_length r with
    | None => True
    | Some n => if osah_bool (wr_http r)
                then wr_plen r = Some (lenZ (ps_rest (wr_stream r)))
                else n = lenZ (ps_rest (wr_stream r))
    end
    /\ (w_only r = true -> osah_bool (wr_http r) = true \/ ps_rest (wr_stream r) = []).

  Lemma http_block_nil f o hb : http_block f o hb -> osah_bool o = false -> hb = [].
  Proof. unfold http_block, osah_bool. destruct o as [h|]; [|auto]. destruct (sah_bool h); [discriminate|auto]. Qed.

  Lemma w_len_ok f r hb : len_ok r -> http_block f (wr_http r) hb ->
    w_len hb r = Some (lenZ (hb ++ (if w_only r then [] else ps_rest (wr_stream r)))).
  Proof. clear fuel sha1.
    intros [H1 H2] Hb. unfold w_len. rewrite lenZ_app. pose proof (lenZ_nonneg (ps_rest (wr_stream r))) as Hnn.
    destruct (osah_bool (wr_http r)) eqn:Eo; cbn [andb].
    - assert (P : w_plen r = Some (lenZ (ps_rest (wr_stream r)))).
      { unfold w_plen. destruct (w_temp r) eqn:Et; [reflexivity|]. unfold w_temp in Et. destruct (wr_length r); [assumption|discriminate]. }
      rewrite P. cbn [opt_plen]. destruct (0 <=? lenZ (ps_rest (wr_stream r))) eqn:E; [|lia].
      destruct (w_only r); [change (lenZ (@nil N)) with 0|]; reflexivity.
    - rewrite (http_block_nil _ _ _ Hb Eo). change (lenZ (@nil N)) with 0. 
      assert (P : (match wr_length r with None => w_plen r | Some n => Some n end) = Some (lenZ (ps_rest (wr_stream r)))).
      { unfold w_plen, w_temp. destruct (wr_length r); [now rewrite H1|reflexivity]. }
      rewrite P. destruct (w_only r); [|reflexivity]. destruct (H2 eq_refl) as [H|H]; [discriminate|]. now rewrite H.
  Qed.

  (** facts about the final headers *)
  Lemma dh_proto nb np pre c h : sh_proto (digest_headers sha1 nb np pre c h) = sh_proto h /\ sh_status (digest_headers sha1 nb np pre c h) = sh_status h.
  Proof. unfold digest_headers, add_if. now destruct nb, np. Qed.
  Lemma strip_proto r : sh_proto (wr_headers (strip_for_unknown r)) = sh_proto (wr_headers r) /\ sh_status (wr_headers (strip_for_unknown r)) = sh_status (wr_headers r).
  Proof.
    unfold strip_for_unknown. cbn [w_set_headers wr_headers]. destruct (otype_is (wr_type r) "revisit");
      rewrite ?(proj1 (proto_remove _ _)), ?(proj2 (proto_remove _ _)); now split.
  Qed.
  Lemma w_base_proto r : sh_proto (w_base r) = sh_proto (wr_headers r) /\ sh_status (w_base r) = sh_status (wr_headers r).
  Proof. unfold w_base. destruct (wr_length r); [now split|apply strip_proto]. Qed.
  Lemma w_final_proto hb r : sh_proto (w_final sha1 hb r) = sh_proto (wr_headers r) /\ sh_status (w_final sha1 hb r) = sh_status (wr_headers r).
  Proof.
    unfold w_final, w_ctype. destruct (w_base_proto r) as [B1 B2]. destruct (dh_proto (w_nb r) (w_np r) hb (ps_rest (wr_stream r)) (w_base r)) as [D1 D2].
    rewrite (proj1 (proto_replace _ _ _)), (proj2 (proto_replace _ _ _)).
    destruct (wr_ctype r); rewrite ?(proj1 (proto_replace _ _ _)), ?(proj2 (proto_replace _ _ _)); split; congruence.
  Qed.

  Lemma dh_get n nb np pre c h : name_eq BD n = false -> name_eq PD n = false -> get_header n (digest_headers sha1 nb np pre c h) = get_header n h.
  Proof. intros H1 H2. unfold digest_headers, add_if. destruct nb, np; rewrite ?get_add_other by assumption; reflexivity. Qed.
  Lemma dh_occurs n nb np pre c h : occurs n (sh_headers (digest_headers sha1 nb np pre c h)) =
    (occurs n (sh_headers h) + (if np && name_eq PD n then 1 else 0) + (if nb && name_eq BD n then 1 else 0))%nat.
  Proof. unfold digest_headers, add_if. destruct nb, np; cbn [andb]; rewrite ?occurs_add; lia. Qed.

  Lemma strip_get n r : name_eq BD n = false -> name_eq PD n = false -> name_eq CT n = false ->
    get_header n (wr_headers (strip_for_unknown r)) = get_header n (wr_headers r).
  Proof.
    intros H1 H2 H3. unfold strip_for_unknown. cbn [w_set_headers wr_headers]. rewrite get_remove_other by assumption.
    destruct (otype_is (wr_type r) "revisit"); rewrite ?get_remove_other by assumption; reflexivity.
  Qed.
  Lemma strip_occurs n r : (occurs n (sh_headers (wr_headers (strip_for_unknown r))) <= occurs n (sh_headers (wr_headers r)))%nat.
  Proof.
    unfold strip_for_unknown. cbn [w_set_headers wr_headers]. etransitivity; [apply occurs_remove|].
    destruct (otype_is (wr_type r) "revisit").
    - apply occurs_remove.
    - etransitivity; apply occurs_remove.
  Qed.

  Lemma w_final_get n hb r : name_eq BD n = false -> name_eq PD n = false -> name_eq CT n = false -> name_eq CL n = false ->
    get_header n (w_final sha1 hb r) = get_header n (wr_headers r).
  Proof.
    intros H1 H2 H3 H4. unfold w_final, w_ctype. rewrite get_replace_other by assumption.
    assert (E : get_header n (w_base r) = get_header n (wr_headers r)).
    { unfold w_base. destruct (wr_length r); [reflexivity|now apply strip_get]. }
    destruct (wr_ctype r); rewrite ?get_replace_other by assumption; rewrite dh_get by assumption; exact E.
  Qed.

  Lemma w_base_occurs n r : (occurs n (sh_headers (w_base r)) <= occurs n (sh_headers (wr_headers r)))%nat.
  Proof. clear fuel sha1. unfold w_base. destruct (wr_length r); [lia|apply strip_occurs]. Qed.

  Lemma w_final_CL hb r : (occurs CL (sh_headers (wr_headers r)) <= 1)%nat ->
    get_header CL (w_final sha1 hb r) = Some (len_str (w_len hb r)).
  Proof.
    intros H. unfold w_final. apply get_replace_same. pose proof (w_base_occurs CL r).
    unfold w_ctype. destruct (wr_ctype r); rewrite ?occurs_replace; change (name_eq CT CL) with false; cbv iota; rewrite dh_occurs;
      change (name_eq PD CL) with false; change (name_eq BD CL) with false; rewrite !andb_false_r; lia.
  Qed.

  Lemma w_final_CT hb r c : wr_ctype r = Some c -> (occurs CT (sh_headers (wr_headers r)) <= 1)%nat ->
    get_header CT (w_final sha1 hb r) = Some c.
  Proof.
    intros E H. unfold w_final. rewrite get_replace_other by reflexivity. unfold w_ctype. rewrite E. apply get_replace_same.
    rewrite dh_occurs. pose proof (w_base_occurs CT r). change (name_eq PD CT) with false; change (name_eq BD CT) with false; rewrite !andb_false_r; lia.
  Qed.

  Lemma w_final_BD hb r : get_header BD (w_base r) = None ->
    get_header BD (w_final sha1 hb r) = Some (sha1_text sha1 (hb ++ ps_rest (wr_stream r))).
  Proof.
    intros E. unfold w_final, w_ctype. rewrite get_replace_other by reflexivity.
    assert (X : get_header BD (digest_headers sha1 (w_nb r) (w_np r) hb (ps_rest (wr_stream r)) (w_base r)) = Some (sha1_text sha1 (hb ++ ps_rest (wr_stream r)))).
    { unfold w_nb, need. rewrite E. cbn [truthy negb]. unfold digest_headers. cbn [add_if]. apply get_add_same.
      unfold add_if. destruct (w_np r); [rewrite get_add_other by reflexivity|]; exact E. }
    destruct (wr_ctype r); rewrite ?get_replace_other by reflexivity; exact X.
  Qed.
  Lemma w_final_BD_keep hb r v : get_header BD (w_base r) = Some v -> v <> [] -> get_header BD (w_final sha1 hb r) = Some v.
  Proof.
    intros E Hv. unfold w_final, w_ctype. rewrite get_replace_other by reflexivity.
    assert (X : get_header BD (digest_headers sha1 (w_nb r) (w_np r) hb (ps_rest (wr_stream r)) (w_base r)) = Some v).
    { unfold w_nb, need. rewrite E. destruct v; [contradiction|]. cbn [truthy negb]. unfold digest_headers. cbn [add_if].
      unfold add_if. destruct (w_np r); [rewrite get_add_other by reflexivity|]; exact E. }
    destruct (wr_ctype r); rewrite ?get_replace_other by reflexivity; exact X.
  Qed.
  Lemma w_final_PD hb r : get_header PD (w_base r) = None ->
    get_header PD (w_final sha1 hb r) =
    if no_payload_digest (wr_type r) then None else Some (sha1_text sha1 (ps_rest (wr_stream r))).
  Proof.
    intros E. unfold w_final, w_ctype. rewrite get_replace_other by reflexivity.
    assert (X : get_header PD (digest_headers sha1 (w_nb r) (w_np r) hb (ps_rest (wr_stream r)) (w_base r)) =
       if no_payload_digest (wr_type r) then None else Some (sha1_text sha1 (ps_rest (wr_stream r)))).
    { unfold digest_headers. unfold w_np, need. rewrite E. cbn [truthy negb andb].
      assert (Y : get_header PD (add_if (negb (no_payload_digest (wr_type r))) PD (sha1_str sha1 (ps_rest (wr_stream r))) (w_base r)) =
                  if no_payload_digest (wr_type r) then None else Some (sha1_text sha1 (ps_rest (wr_stream r)))).
      { destruct (no_payload_digest (wr_type r)); cbn [negb add_if]; [exact E|]. now apply get_add_same. }
      unfold add_if at 1. destruct (w_nb r); [rewrite get_add_other by reflexivity|]; exact Y. }
    destruct (wr_ctype r); rewrite ?get_replace_other by reflexivity; exact X.
  Qed.
  Lemma w_final_PD_keep hb r v : get_header PD (w_base r) = Some v -> v <> [] -> get_header PD (w_final sha1 hb r) = Some v.
  Proof.
    intros E Hv. unfold w_final, w_ctype. rewrite get_replace_other by reflexivity.
    assert (X : get_header PD (digest_headers sha1 (w_nb r) (w_np r) hb (ps_rest (wr_stream r)) (w_base r)) = Some v).
    { unfold w_np, need. rewrite E. destruct v; [contradiction|]. cbn [truthy negb andb]. unfold digest_headers. cbn [add_if].
      unfold add_if. destruct (w_nb r); [rewrite get_add_other by reflexivity|]; exact E. }
    destruct (wr_ctype r); rewrite ?get_replace_other by reflexivity; exact X.
  Qed.

  (** serialisation *)
  Lemma to_str_record h : sh_status h = [] -> sh_proto h <> [] -> to_str None h ++ crlf = record_text (sh_proto h) (sh_headers h).
  Proof.
    intros Hs Hp. unfold to_str, record_text. rewrite first_line_eq by assumption. rewrite Hs. cbn [status_text].
    rewrite <- !app_assoc. do 2 f_equal. f_equal. unfold header_lines. rewrite flat_map_concat_map. reflexivity.
  Qed.
  Lemma utf8_encode_app a b : utf8_encode (a ++ b) = match utf8_encode a, utf8_encode b with Some x, Some y => Some (x ++ y) | _, _ => None end.
  Proof.
    unfold utf8_encode. rewrite forallb_app. destruct (forallb is_scalar a); cbn [andb]; [|reflexivity].
    destruct (forallb is_scalar b); [|reflexivity]. now rewrite flat_map_app.
  Qed.
  Lemma to_bytes_record h head : sh_status h = [] -> sh_proto h <> [] -> to_bytes None h = Ok head ->
    utf8_encode (record_text (sh_proto h) (sh_headers h)) = Some head.
  Proof.
    intros Hs Hp. unfold to_bytes. rewrite <- to_str_record by assumption. rewrite utf8_encode_app.
    destruct (utf8_encode (to_str None h)); [|discriminate]. intros E. injection E as <-. reflexivity.
  Qed.
  Lemma is_record_ok h head block out : sh_status h = [] -> sh_proto h <> [] -> to_bytes None h = Ok head ->
    out = head ++ block ++ crlf ++ crlf -> is_record (sh_proto h) (sh_headers h) block out.
  Proof.
    intros Hs Hp Hb ->. exists head. split; [now apply to_bytes_record|]. reflexivity.
  Qed.
End Create.

(** ** Facts about created records *)
Definition special (n : str) : bool :=
  name_eq (lit "WARC-Type") n || name_eq (lit "WARC-Record-ID") n || name_eq (lit "WARC-Target-URI") n || name_eq (lit "WARC-Date") n.

Lemma init_keeps version uuid now uri rec_type hdict n : special n = false ->
  let h := init_warc_headers version uuid now uri rec_type hdict in
  occurs n (sh_headers h) = occurs n hdict /\ get_header n h = hget n hdict.
Proof.
  unfold special. rewrite !orb_false_iff. intros (((H1 & H2) & H3) & H4). cbv zeta. unfold init_warc_headers.
  set (h0 := replace_header_ (lit "WARC-Type") rec_type (sah_new [] hdict version)).
  assert (A : occurs n (sh_headers h0) = occurs n hdict /\ get_header n h0 = hget n hdict).
  { unfold h0. rewrite occurs_replace, H1, get_replace_other by assumption. now split. }
  clearbody h0. set (h1 := if truthy (get_header (lit "WARC-Record-ID") h0) then h0 else _).
  assert (B : occurs n (sh_headers h1) = occurs n hdict /\ get_header n h1 = hget n hdict).
  { unfold h1. destruct (truthy _); [exact A|]. rewrite occurs_add, H2, get_add_other, Nat.add_0_r by assumption. exact A. }
  clearbody h1. set (h2 := match uri with Some ((_ :: _) as u) => _ | _ => h1 end).
  assert (C : occurs n (sh_headers h2) = occurs n hdict /\ get_header n h2 = hget n hdict).
  { unfold h2. destruct uri as [[|x u]|]; try exact B. rewrite occurs_replace, H3, get_replace_other by assumption. exact B. }
  clearbody h2. destruct (truthy _); [exact C|]. rewrite occurs_add, H4, get_add_other, Nat.add_0_r by assumption. exact C.
Qed.
Lemma init_proto version uuid now uri rec_type hdict :
  let h := init_warc_headers version uuid now uri rec_type hdict in sh_proto h = version /\ sh_status h = [].
Proof.
  cbv zeta. unfold init_warc_headers.
  set (h0 := replace_header_ (lit "WARC-Type") rec_type (sah_new [] hdict version)).
  assert (A : sh_proto h0 = version /\ sh_status h0 = []).
  { unfold h0. rewrite (proj1 (proto_replace _ _ _)), (proj2 (proto_replace _ _ _)). now split. }
  clearbody h0. set (h1 := if truthy (get_header (lit "WARC-Record-ID") h0) then h0 else _).
  assert (B : sh_proto h1 = version /\ sh_status h1 = []) by (unfold h1; destruct (truthy _); exact A).
  clearbody h1. set (h2 := match uri with Some ((_ :: _) as u) => _ | _ => h1 end).
  assert (C : sh_proto h2 = version /\ sh_status h2 = []).
  { unfold h2. destruct uri as [[|x u]|]; try exact B. rewrite (proj1 (proto_replace _ _ _)), (proj2 (proto_replace _ _ _)). exact B. }
  clearbody h2. destruct (truthy _); exact C.
Qed.

Section Created.
  Context (fuel : nat) (sha1 : bytes -> bytes).

  Definition cr_wh (c : creation) : sah := c_headers (cr_version c) (cr_uuid c) (cr_now c) (cr_uri c) (cr_type c) (cr_hdict c) (cr_whdrs c).

  Lemma cr_wh_keeps c n : special n = false ->
    occurs n (sh_headers (cr_wh c)) = occurs n (given_headers c) /\ get_header n (cr_wh c) = hget n (given_headers c).
  Proof.
    intros H. unfold cr_wh, c_headers, given_headers, osah_bool. destruct (cr_whdrs c) as [h|]; [|now apply init_keeps].
    destruct (sah_bool h); [now split|now apply init_keeps].
  Qed.
  Lemma cr_wh_version c : version_ok c -> sh_status (cr_wh c) = [] /\ sh_proto (cr_wh c) <> [].
  Proof.
    unfold version_ok, cr_wh, c_headers, osah_bool.
    destruct (init_proto (cr_version c) (cr_uuid c) (cr_now c) (cr_uri c) (cr_type c) (cr_hdict c)) as [P1 P2].
    destruct (cr_whdrs c) as [h|].
    - destruct (sah_bool h); [auto|]. intros H. now rewrite P1, P2.
    - intros H. now rewrite P1, P2.
  Qed.

  Definition no_empty_http (c : creation) (r : wrec) : Prop :=
    osah_bool (wr_http r) = true \/ wr_http r = None \/ cr_payload c = None.
  Definition revisit_ok (c : creation) (r : wrec) : Prop :=
    cr_type c = lit "revisit" -> cr_bytes c = [] \/ osah_bool (wr_http r) = true.

  Lemma create_facts f c r : (List.length (cr_bytes c) + 3 <= fuel)%nat -> length_right c -> create fuel sha1 f c = Ok r ->
    payload_of c (wr_http r) (ps_rest (wr_stream r))
    /\ ps_ok (wr_stream r) /\ (List.length (ps_rest (wr_stream r)) < fuel)%nat
    /\ wr_type r = Some (cr_type c)
    /\ wr_ctype r = Some (c_ctype (cr_ctype c) (cr_type c) (cr_wh c))
    /\ wr_headers r = digest_headers sha1 false (c_np (cr_type c) (cr_wh c)) [] (ps_rest (wr_stream r)) (cr_wh c)
    /\ (no_empty_http c r -> revisit_ok c r -> len_ok r)
    /\ (osah_bool (cr_http c) = true \/ cr_payload c = None -> wr_http r = cr_http c).
  Proof.
    intros Hf Hl Hc. unfold create in Hc.
    destruct (fun H => create_ok fuel sha1 _ _ _ _ _ _ _ _ _ _ _ _ r H Hc) as (http' & p' & len' & Hst & T1 & T2 & T3 & T4 & T5 & T6 & T7 & T8 & T9).
    { unfold cr_bytes, length_right in *. destruct (cr_payload c) as [p|]; [|cbn in Hf; lia]. destruct Hl as [Hp0 _].
      split; [unfold ps_in; pose proof (lenZ_nonneg (py_all p)); lia|]. pose proof (ps_rest_len p). lia. }
    fold (cr_wh c) in *. rewrite T2, T5.
    assert (RL : (List.length (ps_rest p') <= List.length (cr_bytes c))%nat /\ payload_of c http' (ps_rest p')
      /\ (no_empty_http c r -> match len' with None => True | Some n => n = lenZ (ps_rest p') end)
      /\ (osah_bool (cr_http c) = true \/ cr_payload c = None -> http' = cr_http c)).
    { unfold payload_of, cr_bytes, length_right, no_empty_http in *. rewrite T2. destruct (cr_payload c) as [p|].
      - destruct Hl as [Hp0 Hl]. assert (Hin : ps_in p) by (unfold ps_in; pose proof (lenZ_nonneg (py_all p)); lia).
        assert (Hall : ps_rest p = py_all p) by (unfold ps_rest; rewrite Hp0; now apply dropZ_0).
        destruct (osah_bool (cr_http c)) eqn:Eo.
        + destruct Hst as (-> & -> & ->). rewrite Hall. split; [lia|]. split; [split; [auto|discriminate]|]. split; [|auto].
          intros _. destruct Hl as [->| ->]; [exact I|reflexivity].
        + destruct Hst as (Hld & ->). destruct (load_http_ok fuel true (Some (cr_type c)) (cr_uri c) (cr_length c) p http' p' Hin) as (A & B & blk & C & D & E).
          { rewrite Hall. exact Hf. } { exact Hld. }
          split. { rewrite <- Hall, C, app_length. lia. }
          split. { split; [|intros _ Hn _; exists blk; rewrite <- Hall; auto].
                   intros [H|[H|H]]; try discriminate. rewrite <- Hall, C, (D H). reflexivity. }
          split. 2:{ intros [H|H]; discriminate. }
          intros Hne. pose proof (ps_in_len p' B) as L. rewrite A in L. destruct Hl as [->| ->].
          { destruct (osah_bool http'); exact I. }
          destruct (osah_bool http') eqn:Eh; [lia|]. destruct Hne as [H|[H|H]]; try discriminate.
          rewrite <- Hall, C, (D H). reflexivity.
      - destruct Hst as (-> & -> & ->). rewrite ps_rest_bytesio. split; [lia|]. split; [split; [auto|intros _ _ H; now destruct H]|]. split; [reflexivity|auto]. }
    destruct RL as (R1 & R2 & R3 & R4). split; [exact R2|]. split; [exact T6|]. split; [lia|]. split; [exact T1|]. split; [exact T3|]. split; [exact T7|].
    split; [|exact R4]. intros Hn Hv. unfold len_ok. rewrite T4, T2, T5, T8. specialize (R3 Hn). split.
    - destruct len' as [n|]; [|exact I]. subst n. destruct (osah_bool http'); [|reflexivity]. now destruct (c_np (cr_type c) (cr_wh c) && negb (py_seek p')).
    - unfold w_only, otype_is. rewrite T1. intros Hr. apply leqb_eq in Hr. destruct (Hv Hr) as [H|H]; [|left; now rewrite T2 in H].
      right. rewrite H in R1. destruct (ps_rest p'); [reflexivity|cbn in R1; lia].
  Qed.

  Lemma create_headers_occurs c np content n : special n = false -> name_eq PD n = false ->
    occurs n (sh_headers (digest_headers sha1 false np [] content (cr_wh c))) = occurs n (given_headers c).
  Proof.
    intros H1 H2. rewrite dh_occurs, H2, andb_false_r. cbn [andb]. rewrite !Nat.add_0_r. now apply cr_wh_keeps.
  Qed.
End Created.

Lemma write_plain_unenc fuel sha1 f r hb e : ps_ok (wr_stream r) -> (List.length (ps_rest (wr_stream r)) < fuel)%nat ->
  http_block f (wr_http r) hb -> to_bytes None (w_final sha1 hb r) = Err e ->
  exists r', write_plain fuel sha1 f r = (Err e, [], r') /\ wr_headers r' = w_final sha1 hb r.
Proof.
  intros Hp Hf Hhb Et. pose proof (write_plain_fwd fuel sha1 f r hb Hp Hf Hhb) as W. rewrite Et in W. exact W.
Qed.

Lemma init_type version uuid now uri rec_type hdict : (occurs (lit "WARC-Type") hdict <= 1)%nat ->
  get_header (lit "WARC-Type") (init_warc_headers version uuid now uri rec_type hdict) = Some rec_type.
Proof.
  intros Ho. unfold init_warc_headers.
  set (h0 := replace_header_ (lit "WARC-Type") rec_type (sah_new [] hdict version)).
  assert (A : get_header (lit "WARC-Type") h0 = Some rec_type) by (now apply get_replace_same).
  clearbody h0. set (h1 := if truthy (get_header (lit "WARC-Record-ID") h0) then h0 else _).
  assert (B : get_header (lit "WARC-Type") h1 = Some rec_type).
  { unfold h1. destruct (truthy _); [exact A|]. rewrite get_add_other by reflexivity. exact A. }
  clearbody h1. set (h2 := match uri with Some ((_ :: _) as u) => _ | _ => h1 end).
  assert (C : get_header (lit "WARC-Type") h2 = Some rec_type).
  { unfold h2. destruct uri as [[|x u]|]; try exact B. rewrite get_replace_other by reflexivity. exact B. }
  clearbody h2. destruct (truthy _); [exact C|]. rewrite get_add_other by reflexivity. exact C.
Qed.
Lemma init_uri version uuid now uri rec_type hdict : (occurs (lit "WARC-Target-URI") hdict <= 1)%nat -> uri <> [] ->
  get_header (lit "WARC-Target-URI") (init_warc_headers version uuid now (Some uri) rec_type hdict) = Some uri.
Proof.
  intros Ho Hu. unfold init_warc_headers.
  set (h0 := replace_header_ (lit "WARC-Type") rec_type (sah_new [] hdict version)).
  assert (A : (occurs (lit "WARC-Target-URI") (sh_headers h0) <= 1)%nat) by (unfold h0; rewrite occurs_replace; exact Ho).
  clearbody h0. set (h1 := if truthy (get_header (lit "WARC-Record-ID") h0) then h0 else _).
  assert (B : (occurs (lit "WARC-Target-URI") (sh_headers h1) <= 1)%nat).
  { unfold h1. destruct (truthy _); [exact A|]. rewrite occurs_add. change (name_eq _ _) with false. cbv iota. lia. }
  clearbody h1. destruct uri as [|x u]; [contradiction|].
  set (h2 := replace_header_ (lit "WARC-Target-URI") (x :: u) h1).
  assert (C : get_header (lit "WARC-Target-URI") h2 = Some (x :: u)) by now apply get_replace_same.
  clearbody h2. destruct (truthy _); [exact C|]. rewrite get_add_other by reflexivity. exact C.
Qed.

(** ** Writing twice *)
Definition hlast (n : str) (hs : list header) : option str := hget n (rev hs).
Lemma set_headers_id s : set_headers s (sh_headers s) = s.
Proof. now destruct s. Qed.
Lemma hlast_split n pre k v post : name_eq k n = true -> occurs n post = 0%nat -> hlast n (pre ++ (k, v) :: post) = Some v.
Proof.
  intros Hk Hp. unfold hlast. rewrite rev_app_distr. cbn [rev]. rewrite <- app_assoc.
  rewrite hget_app_None.
  - cbn. now rewrite Hk.
  - apply occurs_0. apply Forall_rev. now apply occurs_0.
Qed.
Lemma replace_id n v s : hlast n (sh_headers s) = Some v -> replace_header_ n v s = s.
Proof.
  intros H. destruct (replace_cases n v s) as [(pre & k & w & post & E & Hk & Hp & ->)|[H0 _]].
  - rewrite E, hlast_split in H by assumption. injection H as ->. rewrite <- E. apply set_headers_id.
  - exfalso. unfold hlast in H. assert (X : hget n (rev (sh_headers s)) = None); [|congruence].
    apply hget_None. apply Forall_rev. now apply occurs_0.
Qed.
Lemma hlast_replace_same n v s : hlast n (sh_headers (replace_header_ n v s)) = Some v.
Proof.
  destruct (replace_cases n v s) as [(pre & k & w & post & E & Hk & Hp & ->)|[H0 ->]]; cbn [set_headers sh_headers]; apply hlast_split; try assumption; try reflexivity.
  unfold name_eq. apply leqb_refl.
Qed.
Lemma hget_rev_skip n pre k v post : name_eq k n = false -> hlast n (pre ++ (k, v) :: post) = hlast n (pre ++ post).
Proof.
  intros H. unfold hlast. rewrite !rev_app_distr. cbn [rev]. rewrite <- app_assoc. cbn [app]. now apply hget_skip.
Qed.
Lemma hlast_replace_other m n v s : name_eq m n = false -> hlast n (sh_headers (replace_header_ m v s)) = hlast n (sh_headers s).
Proof.
  intros H. destruct (replace_cases m v s) as [(pre & k & w & post & E & Hk & Hp & ->)|[H0 ->]]; cbn [set_headers sh_headers].
  - assert (Hkn : name_eq k n = false) by now rewrite (name_eq_trans _ n _ Hk). rewrite E, !hget_rev_skip by assumption. reflexivity.
  - rewrite hget_rev_skip by assumption. now rewrite app_nil_r.
Qed.

Lemma truthy_get_add n v s : v <> [] -> get_header n s = None -> truthy (get_header n (add_header n v s)) = true.
Proof. intros Hv H. rewrite get_add_same by assumption. now destruct v. Qed.

Section Twice.
  Context (fuel : nat) (sha1 : bytes -> bytes).

  (** one digest header of each kind at most, and not an empty one *)
  Definition digests_fine (h : sah) : Prop :=
    (occurs BD (sh_headers h) <= 1)%nat /\ (occurs PD (sh_headers h) <= 1)%nat
    /\ get_header BD h <> Some [] /\ get_header PD h <> Some [].

  Lemma base_fine r : digests_fine (wr_headers r) ->
    get_header BD (w_base r) <> Some [] /\ (no_payload_digest (wr_type r) = false -> get_header PD (w_base r) <> Some []).
  Proof.
    clear fuel sha1. intros (H1 & H2 & H3 & H4). unfold w_base. destruct (wr_length r); [now split|].
    unfold strip_for_unknown. cbn [w_set_headers wr_headers]. rewrite !get_remove_other by reflexivity.
    split.
    - destruct (otype_is (wr_type r) "revisit"); rewrite ?get_remove_other by reflexivity; rewrite get_remove_same by assumption; discriminate.
    - intros Hn. unfold otype_is. destruct (wr_type r) as [t|].
      + unfold no_payload_digest in Hn. apply orb_false_iff in Hn as [_ Hn]. rewrite Hn. rewrite get_remove_same; [discriminate|].
        rewrite (proj2 (occurs_remove _ _ _)) by reflexivity. assumption.
      + rewrite get_remove_same; [discriminate|]. rewrite (proj2 (occurs_remove _ _ _)) by reflexivity. assumption.
  Qed.

  Lemma final_digests hb r : digests_fine (wr_headers r) ->
    need BD (w_final sha1 hb r) = false /\ (need PD (w_final sha1 hb r) && negb (no_payload_digest (wr_type r))) = false.
  Proof.
    intros HD. destruct (base_fine r HD) as [B1 B2]. unfold need. split.
    - destruct (get_header BD (w_base r)) as [v|] eqn:E.
      + rewrite (w_final_BD_keep sha1 hb r v E (fun X => B1 (f_equal Some X))). destruct v; [now destruct B1|reflexivity].
      + rewrite (w_final_BD sha1 hb r E). reflexivity.
    - destruct (no_payload_digest (wr_type r)) eqn:En; [apply andb_false_r|]. specialize (B2 eq_refl).
      destruct (get_header PD (w_base r)) as [v|] eqn:E.
      + rewrite (w_final_PD_keep sha1 hb r v E (fun X => B2 (f_equal Some X))). destruct v; [now destruct B2|reflexivity].
      + rewrite (w_final_PD sha1 hb r E), En. reflexivity.
  Qed.

  Lemma to_ascii_again f h hb h' b : to_ascii_bytes f h = (Ok hb, h') -> fst (to_ascii_bytes f (set_buff h' b)) = Ok hb.
  Proof.
    unfold to_ascii_bytes. intros H.
    assert (E : exists x, ascii_encode (to_str f h') = Some x /\ hb = x ++ crlf).
    { destruct (ascii_encode (to_str f h)) as [x|] eqn:E1.
      - injection H as <- <-. eauto.
      - destruct (ascii_encode (to_str f (percent_encode h))) as [x|] eqn:E2; [|discriminate]. injection H as <- <-. eauto. }
    destruct E as (x & Ex & ->). change (to_str f (set_buff h' b)) with (to_str f h'). now rewrite Ex.
  Qed.

  Lemma write_twice f r ws r' :
    ps_ok (wr_stream r) -> (List.length (ps_rest (wr_stream r)) < fuel)%nat -> wr_orig r = None ->
    digests_fine (wr_headers r) -> (w_only r = true \/ ps_rest (wr_stream r) = []) ->
    write_plain fuel sha1 f r = (Ok tt, ws, r') ->
    exists ws2 r2, write_plain fuel sha1 f r' = (Ok tt, ws2, r2) /\ concat ws2 = concat ws /\ wr_headers r2 = wr_headers r'.
  Proof.
    intros Hp Hf Ho HD Hr W.
    destruct (write_plain_ok fuel sha1 f r ws r' Hp Hf W) as (hb & head & H1 & H2 & H3 & H4 & H5 & H6 & H7 & H8 & H9 & H10 & H11 & H12).
    specialize (H12 Ho). destruct H7 as (http' & Eh & Eb & Hh).
    assert (Hhb : http_block f (wr_http r') hb).
    { rewrite Eh. unfold http_block in *. destruct (wr_http r) as [h|].
      - destruct (sah_bool h) eqn:Es.
        + destruct Hh as (h' & Ea & ->). destruct (sah_bool_ascii _ _ _ _ Ea) as (Sb & _). change (sah_bool (set_buff h' (Some hb))) with (sah_bool h').
          rewrite Sb, Es. exact (to_ascii_again _ _ _ _ _ Ea).
        + rewrite Hh, Es. exact H1.
      - rewrite Hh. exact H1. }
    assert (Hrest : (List.length (ps_rest (wr_stream r')) < fuel)%nat).
    { destruct (w_only r) eqn:Eo; [rewrite H11 by reflexivity; assumption|]. destruct (H10 eq_refl) as [->|[_ X]]; [cbn; lia|contradiction]. }
    assert (EL : wr_length r' <> None).
    { rewrite H8. unfold w_len. destruct (osah_bool (wr_http r) && (0 <=? opt_plen (w_plen r))); [discriminate|].
      destruct (wr_length r) eqn:El; [discriminate|]. unfold w_plen, w_temp. rewrite El. discriminate. }
    destruct (final_digests hb r HD) as [N1 N2].
    assert (B : w_base r' = w_final sha1 hb r) by (unfold w_base; destruct (wr_length r'); [exact H3|contradiction]).
    assert (NB : w_nb r' = false) by (unfold w_nb; now rewrite B).
    assert (NP : w_np r' = false) by (unfold w_np; now rewrite B, H5).
    assert (T : w_temp r' = false) by (unfold w_temp; rewrite NB, NP; destruct (wr_length r'); [reflexivity|contradiction]).
    assert (O : w_only r' = w_only r) by (unfold w_only; now rewrite H5).
    assert (PL : w_plen r' = w_plen r) by (unfold w_plen at 1; now rewrite T).
    assert (L : w_len hb r' = w_len hb r).
    { unfold w_len at 1. rewrite PL, O, Eh, Eb, H8. unfold w_len.
      destruct (osah_bool (wr_http r) && (0 <=? opt_plen (w_plen r))); [reflexivity|].
      destruct (wr_length r) eqn:El; [reflexivity|]. unfold w_plen, w_temp. rewrite El. reflexivity. }
    assert (F : w_final sha1 hb r' = w_final sha1 hb r).
    { unfold w_final at 1. rewrite L, NB, NP, B. unfold digest_headers. cbn [add_if].
      assert (C : w_ctype r' (w_final sha1 hb r) = w_final sha1 hb r).
      { unfold w_ctype. rewrite H6. destruct (wr_ctype r) as [c|] eqn:Ec; [|reflexivity]. apply replace_id.
        unfold w_final. rewrite hlast_replace_other by reflexivity. unfold w_ctype. rewrite Ec. apply hlast_replace_same. }
      rewrite C. apply replace_id. unfold w_final. apply hlast_replace_same. }
    pose proof (write_plain_fwd fuel sha1 f r' hb H12 Hrest Hhb) as W2. rewrite F, H2 in W2.
    destruct W2 as (ws2 & r2 & E2 & G1 & G2 & _). exists ws2, r2. split; [exact E2|]. split; [|now rewrite G1, H3].
    rewrite G2, H4, O. destruct (w_only r) eqn:Eo; [reflexivity|].
    destruct Hr as [Hr|Hr]; [discriminate|]. rewrite Hr. destruct (H10 eq_refl) as [->|[_ X]]; [reflexivity|contradiction].
  Qed.
End Twice.

(** ** Unknown length and unseekable payloads *)
Lemma load_http_len {T} (ops : sops T) fuel v t uri l s : l <> Some 0 -> load_http_headers ops fuel v t uri l s = load_http_headers ops fuel v t uri None s.
Proof.
  intros H. unfold load_http_headers. destruct l as [z|]; [|reflexivity]. destruct z; [contradiction|reflexivity|reflexivity].
Qed.

Section Unknown.
  Context (fuel : nat) (sha1 : bytes -> bytes).

  Definition step1 (c : creation) (p : pstream) : res (option sah * pstream * option Z) :=
    if osah_bool (cr_http c) then Ok (cr_http c, p, cr_length c)
    else match load_http_headers ps_ops fuel true (Some (cr_type c)) (cr_uri c) (cr_length c) p with
         | (Err e, _) => Err e
         | (Ok h, p') => Ok (h, p', if osah_bool h then match cr_length c with Some n => Some (n - py_pos p') | None => None end else cr_length c)
         end.

  Lemma create_fwd f c p http' p' len' : cr_payload c = Some p -> step1 c p = Ok (http', p', len') ->
    ps_in p' -> (List.length (ps_rest p') < fuel)%nat -> exists r, create fuel sha1 f c = Ok r /\ wr_http r = http' /\ ps_rest (wr_stream r) = ps_rest p'.
  Proof.
    intros Ep E Hi Hf. unfold create, create_warc_record. rewrite Ep. fold (step1 c p). rewrite E.
    match goal with |- context [ensure_digest fuel sha1 f false true ?r0] => 
      destruct (ensure_digest_ok fuel sha1 f false true r0 []) as (r' & D0 & D1 & D2 & D3 & D4 & D5 & _) end.
    { now apply ps_in_ok. } { exact Hf. } { unfold block_prefix. cbn. destruct http'; reflexivity. }
    rewrite D0. exists r'. auto.
  Qed.

  Lemma remove_add_same n v h : occurs n (sh_headers h) = 0%nat -> remove_header_ n (add_header n v h) = h.
  Proof.
    clear fuel sha1. intros H. unfold remove_header_.
    rewrite (remove_header_last n (add_header n v h) (sh_headers h) n v []); [|reflexivity|apply ci_eq_refl|constructor].
    cbn [snd]. rewrite app_nil_r. destruct h; reflexivity.
  Qed.
  Lemma remove_none n h : occurs n (sh_headers h) = 0%nat -> remove_header_ n h = h.
  Proof. clear fuel sha1. intros H. destruct (remove_cases n h) as [(pre & k & v & post & E & Hk & _)|[_ E]]; [|exact E].
    rewrite E, occurs_app, occurs_cons, Hk in H. lia. Qed.

  (** the headers written do not depend on how the length was given *)
  Lemma created_final f c r hb : (List.length (cr_bytes c) + 3 <= fuel)%nat -> length_right c -> create fuel sha1 f c = Ok r ->
    occurs BD (given_headers c) = 0%nat -> occurs PD (given_headers c) = 0%nat -> occurs CT (given_headers c) = 0%nat ->
    digest_headers sha1 (w_nb r) (w_np r) hb (ps_rest (wr_stream r)) (w_base r)
    = add_header BD (sha1_str sha1 (hb ++ ps_rest (wr_stream r)))
        (add_if (negb (no_payload_digest (Some (cr_type c)))) PD (sha1_str sha1 (ps_rest (wr_stream r))) (cr_wh c)).
  Proof.
    intros Hf Hl E B0 P0 C0. destruct (create_facts fuel sha1 f c r Hf Hl E) as (_ & _ & _ & Ht & _ & H & _).
    set (content := ps_rest (wr_stream r)) in *. set (npd := negb (no_payload_digest (Some (cr_type c)))).
    destruct (cr_wh_keeps c BD eq_refl) as [B1 _]. destruct (cr_wh_keeps c PD eq_refl) as [P1 _]. destruct (cr_wh_keeps c CT eq_refl) as [C1 _].
    rewrite B0 in B1. rewrite P0 in P1. rewrite C0 in C1.
    assert (GP : get_header PD (cr_wh c) = None) by now apply hget_None_occurs.
    assert (GB : get_header BD (cr_wh c) = None) by now apply hget_None_occurs.
    assert (Hnp : c_np (cr_type c) (cr_wh c) = npd) by (unfold c_np, need; now rewrite GP).
    rewrite Hnp in H. unfold digest_headers in H. cbn [add_if] in H.
    unfold w_nb, w_np, w_base. destruct (wr_length r) as [n|].
    - rewrite H. assert (GB1 : get_header BD (add_if npd PD (sha1_str sha1 content) (cr_wh c)) = None).
      { unfold add_if. destruct npd; [rewrite get_add_other by reflexivity|]; exact GB. }
      unfold need at 1. rewrite GB1. cbn [truthy negb]. unfold digest_headers. cbn [add_if].
      rewrite Ht. fold npd. destruct npd; cbn [add_if].
      + unfold need. rewrite get_add_same by assumption. reflexivity.
      + rewrite andb_false_r. reflexivity.
    - assert (EB : wr_headers (strip_for_unknown r) = cr_wh c).
      { unfold strip_for_unknown. cbn [w_set_headers wr_headers]. rewrite H, Ht.
        destruct npd eqn:En; cbn [add_if].
        - assert (otype_is (Some (cr_type c)) "revisit" = false) as ->.
          { unfold npd in En. apply negb_true_iff in En. unfold no_payload_digest in En. now apply orb_false_iff in En as [_ En]. }
          rewrite (remove_none BD) by (rewrite occurs_add; change (name_eq PD BD) with false; cbv iota; lia).
          rewrite remove_add_same by assumption. now apply remove_none.
        - rewrite (remove_none BD) by assumption. destruct (otype_is (Some (cr_type c)) "revisit"); rewrite ?(remove_none PD) by assumption; now apply remove_none. }
      rewrite EB, Ht. unfold need. rewrite GB, GP. cbn [truthy negb andb]. fold npd. reflexivity.
  Qed.
End Unknown.

Lemma gz_writes_deflated (k : kenv) : forall ws (s : kS k), concat (gz_writes k s ws true) = deflated k s ws.
Proof.
  induction ws as [|w t IH]; intros s; [apply app_nil_r|]. cbn [gz_writes deflated].
  destruct (kcompress k s w) as [s' o]. cbn [concat fst snd]. now rewrite IH.
Qed.
