(** * Thm_Writer: proofs of the theorems restated in Props_Writer.v *)
From Coq Require Import String List ZArith NArith Bool Lia.
From Coq Require Import ZifyBool ZifyNat ZifyN.
From Verif Require Import PyBase Utf8 Codecs Headers HeaderSpec Streams Loader Writer WriterSpec Toy.
Import ListNotations.
Open Scope Z_scope.

From Verif Require Import Facts HeaderProofs SimProofs WriterProofs.

(** the HTTP headers of the record are not an empty StatusAndHeaders object (which is
    false in a condition), or no payload was given *)
Definition http_not_empty (c : creation) (r : wrec) : Prop :=
  osah_bool (wr_http r) = true \/ wr_http r = None \/ cr_payload c = None.
(** a revisit record has no payload unless it has HTTP headers *)
Definition revisit_fits (c : creation) (r : wrec) : Prop :=
  cr_type c = lit "revisit" -> cr_bytes c = [] \/ osah_bool (wr_http r) = true.
(** examples *)
Definition ex_http : sah :=
  sah_new (lit "200 OK") [(lit "Content-Type", lit "text/plain")] (lit "HTTP/1.1").
Definition ex_c (t : string) (p : option pstream) (n : option Z) (h : option sah) : creation :=
  mk_creation (lit "WARC/1.0") (lit "1234") (lit "2000-01-01T00:00:00Z") (Some (lit "http://a/")) (lit t)
              p n [] [(lit "X-One", lit "1")] None h.
(** create and write: output and final headers *)
Definition ex_out (c : creation) : option (bytes * list header) :=
  match create 200 toy_hash None c with
  | Ok r => match write_plain 200 toy_hash None r with
            | (Ok _, ws, r') => Some (concat ws, sh_headers (wr_headers r'))
            | _ => None
            end
  | Err _ => None
  end.

Lemma is_record_written fuel sha1 f r ws r' : ps_ok (wr_stream r) -> (List.length (ps_rest (wr_stream r)) < fuel)%nat ->
  sh_status (wr_headers r) = [] -> sh_proto (wr_headers r) <> [] ->
  write_plain fuel sha1 f r = (Ok tt, ws, r') ->
  exists hb, http_block f (wr_http r) hb
    /\ wr_headers r' = w_final sha1 hb r
    /\ is_record (sh_proto (wr_headers r)) (sh_headers (wr_headers r')) (hb ++ (if w_only r then [] else ps_rest (wr_stream r))) (concat ws).
Proof.
  intros Hp Hf Hs Hpr E. destruct (write_plain_ok fuel sha1 f r ws r' Hp Hf E) as (hb & head & H1 & H2 & H3 & H4 & _).
  exists hb. split; [assumption|]. split; [assumption|]. rewrite H3. destruct (w_final_proto sha1 hb r) as [P1 P2].
  rewrite <- P1. eapply is_record_ok; [congruence|congruence|exact H2|]. rewrite H4. now rewrite <- !app_assoc.
Qed.
Lemma created_version fuel sha1 f c r : (List.length (cr_bytes c) + 3 <= fuel)%nat -> length_right c -> version_ok c ->
  create fuel sha1 f c = Ok r -> sh_status (wr_headers r) = [] /\ sh_proto (wr_headers r) <> [].
Proof.
  intros Hf Hl Hv E. destruct (create_facts fuel sha1 f c r Hf Hl E) as (_ & _ & _ & _ & _ & H & _). rewrite H.
  rewrite (proj1 (dh_proto _ _ _ _ _ _)), (proj2 (dh_proto _ _ _ _ _ _)). now apply cr_wh_version.
Qed.
Lemma only_iff r t : wr_type r = Some t -> (w_only r = true <-> t = lit "revisit").
Proof. intros E. unfold w_only, otype_is. rewrite E. apply leqb_eq. Qed.
Lemma created_BD fuel sha1 f c r : (List.length (cr_bytes c) + 3 <= fuel)%nat -> length_right c ->
  create fuel sha1 f c = Ok r -> occurs BD (given_headers c) = 0%nat -> get_header BD (w_base r) = None.
Proof.
  intros Hf Hl E Ho. destruct (create_facts fuel sha1 f c r Hf Hl E) as (_ & _ & _ & _ & _ & H & _).
  apply hget_None_occurs. pose proof (w_base_occurs BD r) as W. rewrite H, create_headers_occurs in W by reflexivity. lia.
Qed.
Lemma created_PD fuel sha1 f c r hb : (List.length (cr_bytes c) + 3 <= fuel)%nat -> length_right c ->
  create fuel sha1 f c = Ok r -> occurs PD (given_headers c) = 0%nat ->
  get_header PD (w_final sha1 hb r) = if no_payload_digest (Some (cr_type c)) then None else Some (sha1_text sha1 (ps_rest (wr_stream r))).
Proof.
  intros Hf Hl E Ho. destruct (create_facts fuel sha1 f c r Hf Hl E) as (_ & _ & _ & Ht & _ & H & _).
  assert (G0 : get_header PD (cr_wh c) = None).
  { apply hget_None_occurs. destruct (cr_wh_keeps c PD) as [A _]; [reflexivity|]. now rewrite A. }
  assert (Hnp : c_np (cr_type c) (cr_wh c) = negb (no_payload_digest (Some (cr_type c)))).
  { unfold c_np, need. now rewrite G0. }
  rewrite Hnp in H.
  assert (G1 : get_header PD (wr_headers r) = if no_payload_digest (Some (cr_type c)) then None else Some (sha1_text sha1 (ps_rest (wr_stream r)))).
  { rewrite H. unfold digest_headers. cbn [add_if]. destruct (no_payload_digest (Some (cr_type c))); cbn [negb add_if]; [exact G0|]. now apply get_add_same. }
  destruct (no_payload_digest (Some (cr_type c))) eqn:En.
  - rewrite w_final_PD; [now rewrite Ht, En|].
    unfold w_base. destruct (wr_length r); [exact G1|]. apply hget_None_occurs. apply hget_None_occurs in G1.
    pose proof (strip_occurs PD r). unfold get_header in *. lia.
  - unfold w_base in *. destruct (wr_length r) eqn:El.
    + apply w_final_PD_keep; [unfold w_base; now rewrite El|discriminate].
    + rewrite w_final_PD; [now rewrite Ht, En|]. unfold w_base. rewrite El.
      unfold strip_for_unknown. cbn [w_set_headers wr_headers]. rewrite get_remove_other by reflexivity.
      unfold otype_is. rewrite Ht. unfold no_payload_digest in En. apply orb_false_iff in En as [_ En]. rewrite En.
      apply get_remove_same. rewrite (proj2 (occurs_remove BD PD _)) by reflexivity. rewrite H, dh_occurs. cbn [andb negb].
      destruct (cr_wh_keeps c PD) as [A _]; [reflexivity|]. rewrite A, Ho. destruct (name_eq PD PD); cbn; lia.
Qed.

Lemma C24_content_length_partial_pf :
  forall fuel sha1 f f' c r ws r',
  (List.length (cr_bytes c) + 3 <= fuel)%nat -> length_right c -> version_ok c ->
  (occurs (lit "Content-Length") (given_headers c) <= 1)%nat ->
  create fuel sha1 f c = Ok r -> http_not_empty c r -> revisit_fits c r ->
  write_plain fuel sha1 f' r = (Ok tt, ws, r') ->
  exists block,
    is_record (sh_proto (wr_headers r)) (sh_headers (wr_headers r')) block (concat ws)
    /\ value_of (lit "Content-Length") (sh_headers (wr_headers r')) = Some (str_of_Z (lenZ block)).
Proof.
intros fuel sha1 f f' c r ws r' Hf Hl Hv Ho E Hne Hrf W.
destruct (create_facts fuel sha1 f c r Hf Hl E) as (_ & Hp & Hf' & Ht & _ & H & HL & _).
destruct (created_version fuel sha1 f c r Hf Hl Hv E) as [V1 V2].
destruct (is_record_written fuel sha1 f' r ws r' Hp Hf' V1 V2 W) as (hb & Hb & Hh & Hr).
eexists. split; [exact Hr|]. rewrite value_of_hget, Hh. change (hget (lit "Content-Length") (sh_headers (w_final sha1 hb r))) with (get_header CL (w_final sha1 hb r)).
rewrite w_final_CL.
- rewrite (w_len_ok f' r hb (HL Hne Hrf) Hb). reflexivity.
- rewrite H, create_headers_occurs by reflexivity. exact Ho.
Qed.

Lemma C24_blank_line_refuted_pf :
  exists c r ws r' block,
  length_right c /\ version_ok c /\ occurs (lit "Content-Length") (given_headers c) = 0%nat
  /\ create 200 toy_hash None c = Ok r /\ write_plain 200 toy_hash None r = (Ok tt, ws, r')
  /\ is_record (sh_proto (wr_headers r)) (sh_headers (wr_headers r')) block (concat ws)
  /\ value_of (lit "Content-Length") (sh_headers (wr_headers r')) = Some (lit "7")
  /\ block = lit "hello".
Proof.
set (c := ex_c "response" (Some (bytesio (crlf ++ lit "hello"))) (Some 7) None).
destruct (create 200 toy_hash None c) as [r|e] eqn:Ec; [|vm_compute in Ec; discriminate].
assert (Er : r = match create 200 toy_hash None c with Ok r => r | Err _ => r end) by now rewrite Ec.
destruct (write_plain 200 toy_hash None r) as [[x ws] r'] eqn:Ew.
exists c, r, ws, r', (lit "hello"). subst c. vm_compute in Er. subst r. vm_compute in Ew. injection Ew as <- <- <-.
split; [split; [reflexivity|now right]|]. split; [discriminate|]. split; [reflexivity|]. split; [exact Ec|].
split; [vm_compute; reflexivity|]. split; [eexists; split; vm_compute; reflexivity|]. split; vm_compute; reflexivity.
Qed.

Lemma C24_position_refuted_pf :
  exists c p r ws r' block,
  cr_payload c = Some p /\ cr_length c = Some (lenZ (ps_rest p)) /\ version_ok c
  /\ create 200 toy_hash None c = Ok r /\ write_plain 200 toy_hash None r = (Ok tt, ws, r')
  /\ is_record (sh_proto (wr_headers r)) (sh_headers (wr_headers r')) block (concat ws)
  /\ value_of (lit "Content-Length") (sh_headers (wr_headers r')) = Some (lit "22")
  /\ block = lit "HTTP/1.0 200 OK" ++ crlf ++ crlf ++ lit "hello".
Proof.
set (p := mk_ps (lit "xx" ++ lit "HTTP/1.0 200 OK" ++ crlf ++ crlf ++ lit "hello") 2 [] true).
set (c := ex_c "response" (Some p) (Some 24) None).
destruct (create 200 toy_hash None c) as [r|e] eqn:Ec; [|vm_compute in Ec; discriminate].
assert (Er : r = match create 200 toy_hash None c with Ok r => r | Err _ => r end) by now rewrite Ec.
destruct (write_plain 200 toy_hash None r) as [[x ws] r'] eqn:Ew.
exists c, p, r, ws, r', (lit "HTTP/1.0 200 OK" ++ crlf ++ crlf ++ lit "hello"). subst c p. vm_compute in Er. subst r. vm_compute in Ew. injection Ew as <- <- <-.
split; [reflexivity|]. split; [vm_compute; reflexivity|]. split; [discriminate|]. split; [exact Ec|].
split; [vm_compute; reflexivity|]. split; [eexists; split; vm_compute; reflexivity|]. split; vm_compute; reflexivity.
Qed.

Lemma C24_revisit_refuted_pf :
  exists c r ws r' block,
  length_right c /\ version_ok c /\ cr_type c = lit "revisit"
  /\ create 200 toy_hash None c = Ok r /\ write_plain 200 toy_hash None r = (Ok tt, ws, r')
  /\ is_record (sh_proto (wr_headers r)) (sh_headers (wr_headers r')) block (concat ws)
  /\ value_of (lit "Content-Length") (sh_headers (wr_headers r')) = Some (lit "5")
  /\ block = [].
Proof.
set (c := mk_creation (lit "WARC/1.0") (lit "1234") (lit "2000") (Some (lit "dns:a")) (lit "revisit") (Some (bytesio (lit "hello"))) (Some 5) [] [] None None).
destruct (create 200 toy_hash None c) as [r|e] eqn:Ec; [|vm_compute in Ec; discriminate].
assert (Er : r = match create 200 toy_hash None c with Ok r => r | Err _ => r end) by now rewrite Ec.
destruct (write_plain 200 toy_hash None r) as [[x ws] r'] eqn:Ew.
exists c, r, ws, r', []. subst c. vm_compute in Er. subst r. vm_compute in Ew. injection Ew as <- <- <-.
split; [split; [reflexivity|now right]|]. split; [discriminate|]. split; [reflexivity|]. split; [exact Ec|].
split; [vm_compute; reflexivity|]. split; [eexists; split; vm_compute; reflexivity|]. split; vm_compute; reflexivity.
Qed.

Lemma C25_framing_pf :
  forall fuel sha1 f r ws r',
  0 <= py_pos (wr_stream r) -> (List.length (ps_rest (wr_stream r)) + 3 <= fuel)%nat ->
  sh_status (wr_headers r) = [] -> sh_proto (wr_headers r) <> [] ->
  write_plain fuel sha1 f r = (Ok tt, ws, r') ->
  exists hb block, http_block f (wr_http r) hb
    /\ (wr_type r = Some (lit "revisit") -> block = hb)
    /\ (wr_type r <> Some (lit "revisit") -> block = hb ++ ps_rest (wr_stream r))
    /\ is_record (sh_proto (wr_headers r)) (sh_headers (wr_headers r')) block (concat ws)
    /\ forall n, ~ ci_eq (lit "Content-Length") n -> ~ ci_eq (lit "Content-Type") n ->
         ~ ci_eq (lit "WARC-Block-Digest") n -> ~ ci_eq (lit "WARC-Payload-Digest") n ->
         value_of n (sh_headers (wr_headers r')) = value_of n (sh_headers (wr_headers r)).
Proof.
intros fuel sha1 f r ws r' Hp Hf Hs Hpr W.
destruct (is_record_written fuel sha1 f r ws r' Hp ltac:(lia) Hs Hpr W) as (hb & Hb & Hh & Hr).
exists hb, (hb ++ (if w_only r then [] else ps_rest (wr_stream r))). split; [assumption|].
assert (O : w_only r = true <-> wr_type r = Some (lit "revisit")).
{ unfold w_only, otype_is. destruct (wr_type r) as [t|]; [|split; discriminate]. rewrite leqb_eq. split; [now intros ->|now intros [= ->]]. }
split. { intros H. apply O in H. rewrite H. apply app_nil_r. }
split. { intros H. destruct (w_only r); [exfalso; apply H; now apply O|reflexivity]. }
split; [assumption|]. intros n H1 H2 H3 H4. rewrite !value_of_hget, Hh.
apply name_eq_not in H1, H2, H3, H4. exact (w_final_get sha1 n hb r H3 H4 H2 H1).
Qed.

Lemma C25_write_succeeds_pf :
  forall fuel sha1 f r,
  0 <= py_pos (wr_stream r) -> (List.length (ps_rest (wr_stream r)) + 3 <= fuel)%nat ->
  match write_plain fuel sha1 f r with
  | (Ok _, _, _) => exists hb, http_block f (wr_http r) hb
  | (Err e, ws, r') => ws = [] /\ ((forall hb, ~ http_block f (wr_http r) hb)
                        \/ (e = UnicodeErr /\ utf8_encode (to_str None (wr_headers r')) = None))
  end.
Proof.
intros fuel sha1 f r Hp Hf. destruct (write_plain fuel sha1 f r) as [[[[]|e] ws] r'] eqn:W.
- exact (write_plain_http fuel sha1 f r ws r' W).
- destruct (wr_http r) as [h|] eqn:Eh; [destruct (sah_bool h) eqn:Eb; [destruct (to_ascii_bytes f h) as [[b|e'] h'] eqn:Ea|]|].
  2:{ unfold write_plain in W. rewrite Eh, Eb in W. unfold compute_headers_buffer in W. rewrite Ea in W. injection W as <- <- _.
      split; [reflexivity|]. left. intros hb H. unfold http_block in H. rewrite Eb, Ea in H. discriminate. }
  all: assert (exists hb, http_block f (wr_http r) hb) as (hb & Hhb) by
    (unfold http_block; rewrite Eh, ?Eb, ?Ea; eexists; reflexivity);
    pose proof (write_plain_fwd fuel sha1 f r hb Hp ltac:(lia) Hhb) as F;
    (destruct (to_bytes None (w_final sha1 hb r)) as [head|e'] eqn:Et;
      [destruct F as (ws' & r'' & F & _); rewrite W in F; discriminate|
       pose proof (write_plain_unenc fuel sha1 f r hb e' Hp ltac:(lia) Hhb Et) as (r'' & F' & HH); rewrite W in F'; injection F' as -> -> ->;
       split; [reflexivity|]; right; rewrite HH; unfold to_bytes in Et; destruct (utf8_encode _); [discriminate|];
       injection Et as <-; now split]).
Qed.

Lemma C26_digests_pf :
  forall fuel sha1 f f' c r ws r',
  (List.length (cr_bytes c) + 3 <= fuel)%nat -> length_right c -> version_ok c ->
  occurs (lit "WARC-Block-Digest") (given_headers c) = 0%nat ->
  occurs (lit "WARC-Payload-Digest") (given_headers c) = 0%nat ->
  (cr_type c = lit "revisit" -> cr_bytes c = []) ->
  create fuel sha1 f c = Ok r -> write_plain fuel sha1 f' r = (Ok tt, ws, r') ->
  exists hb payload block,
    http_block f' (wr_http r) hb /\ payload_of c (wr_http r) payload /\ block = hb ++ payload
    /\ is_record (sh_proto (wr_headers r)) (sh_headers (wr_headers r')) block (concat ws)
    /\ value_of (lit "WARC-Block-Digest") (sh_headers (wr_headers r')) = Some (sha1_text sha1 block)
    /\ value_of (lit "WARC-Payload-Digest") (sh_headers (wr_headers r'))
       = (if leqb (cr_type c) (lit "warcinfo") || leqb (cr_type c) (lit "revisit") then None
          else Some (sha1_text sha1 payload)).
Proof.
intros fuel sha1 f f' c r ws r' Hf Hl Hv Hb0 Hp0 Hrev E W.
destruct (create_facts fuel sha1 f c r Hf Hl E) as (Hpay & Hp & Hf' & Ht & _ & H & _ & _).
destruct (created_version fuel sha1 f c r Hf Hl Hv E) as [V1 V2].
destruct (is_record_written fuel sha1 f' r ws r' Hp Hf' V1 V2 W) as (hb & Hb & Hh & Hr).
exists hb, (ps_rest (wr_stream r)), (hb ++ ps_rest (wr_stream r)). split; [assumption|]. split; [assumption|]. split; [reflexivity|].
split.
{ destruct (w_only r) eqn:Eo; [|exact Hr]. apply (only_iff r _ Ht) in Eo.
  assert (ps_rest (wr_stream r) = []) as Hnil.
  { specialize (Hrev Eo). destruct Hpay as [P1 P2]. destruct (osah_bool (cr_http c)) eqn:E1; [rewrite P1 by auto; assumption|].
    destruct (wr_http r) as [h|] eqn:E2; [|rewrite P1 by auto; assumption]. destruct (cr_payload c) as [p|] eqn:E3; [|rewrite P1 by auto; assumption].
    destruct (P2 eq_refl) as (blk & Eb & _); try discriminate. rewrite Hrev in Eb. symmetry in Eb. now apply app_eq_nil in Eb. }
  rewrite Hnil. exact Hr. }
rewrite !value_of_hget, Hh. split.
- apply (w_final_BD sha1 hb r). eapply created_BD; eassumption.
- exact (created_PD fuel sha1 f c r hb Hf Hl E Hp0).
Qed.

Lemma C29_revisit_pf :
  forall fuel sha1 version uuid now f f' uri digest ref_uri ref_date http hdict r ws r',
  version <> [] -> (3 <= fuel)%nat ->
  (forall n, In n [lit "WARC-Payload-Digest"; lit "WARC-Refers-To-Target-URI"; lit "WARC-Refers-To-Date"; lit "WARC-Profile"] ->
             occurs n hdict = 0%nat) ->
  (occurs (lit "Content-Length") hdict <= 1)%nat -> (occurs (lit "WARC-Type") hdict <= 1)%nat ->
  (occurs (lit "WARC-Target-URI") hdict <= 1)%nat -> uri <> [] ->
  create_revisit_record fuel sha1 version uuid now f uri digest ref_uri ref_date http hdict = Ok r ->
  write_plain fuel sha1 f' r = (Ok tt, ws, r') ->
  let hs := sh_headers (wr_headers r') in
  exists hb, http_block f' http hb
    /\ is_record version hs hb (concat ws)
    /\ value_of (lit "Content-Length") hs = Some (str_of_Z (lenZ hb))
    /\ value_of (lit "WARC-Type") hs = Some (lit "revisit")
    /\ value_of (lit "WARC-Target-URI") hs = Some uri
    /\ value_of (lit "WARC-Payload-Digest") hs = Some digest /\ digest <> []
    /\ value_of (lit "WARC-Refers-To-Target-URI") hs = Some ref_uri
    /\ value_of (lit "WARC-Refers-To-Date") hs = Some ref_date
    /\ (version = lit "WARC/1.1" -> value_of (lit "WARC-Profile") hs = Some (lit "http://netpreserve.org/warc/1.1/revisit/identical-payload-digest"))
    /\ (version = lit "WARC/1.0" -> value_of (lit "WARC-Profile") hs = Some (lit "http://netpreserve.org/warc/1.0/revisit/identical-payload-digest"))
    /\ (occurs (lit "WARC-Block-Digest") hdict = 0%nat ->
        value_of (lit "WARC-Block-Digest") hs = Some (sha1_text sha1 hb)).
Proof.
intros fuel sha1 version uuid now f f' uri digest ref_uri ref_date http hdict r ws r' Hver Hf Hn Hcl Hty Htu Huri.
unfold create_revisit_record. destruct (is_nil digest) eqn:Ed; [discriminate|].
set (c := mk_creation version uuid now (Some uri) (lit "revisit") None None [] hdict None http).
match goal with |- (match ?X with _ => _ end = _ -> _) => destruct X as [r0|e] eqn:E0 end; [|intros X; discriminate X].
change (create fuel sha1 f c = Ok r0) in E0.
destruct (create_facts fuel sha1 f c r0 Hf I E0) as (Hpay & Hp & Hf' & Ht & _ & H & HL & Hhttp).
assert (Hrest : ps_rest (wr_stream r0) = []) by (destruct Hpay as [P _]; apply P; auto).
assert (Eh : wr_http r0 = http) by (apply Hhttp; now right).
set (prof := if leqb version _ then _ else _).
assert (Hprof : (version = lit "WARC/1.1" -> prof = REVISIT_PROFILE_1_1) /\ (version = lit "WARC/1.0" -> prof = REVISIT_PROFILE)) by (split; intros ->; reflexivity).
clearbody prof.
set (h0 := wr_headers r0) in *.
set (h1 := add_header (lit "WARC-Profile") prof h0). set (h2 := add_header (lit "WARC-Refers-To-Target-URI") ref_uri h1).
set (h3 := add_header (lit "WARC-Refers-To-Date") ref_date h2). set (h4 := add_header PD digest h3).
intros E W. injection E as E.
assert (Q : wr_headers r = h4 /\ wr_type r = Some (lit "revisit") /\ wr_stream r = wr_stream r0 /\ wr_http r = http /\ wr_length r = wr_length r0 /\ wr_plen r = wr_plen r0).
{ rewrite <- E. cbn. repeat split; assumption. }
destruct Q as (Q1 & Q2 & Q3 & Q4 & Q5 & Q6).
assert (HV : sh_status h0 = [] /\ sh_proto h0 = version).
{ rewrite H, (proj1 (dh_proto _ _ _ _ _ _)), (proj2 (dh_proto _ _ _ _ _ _)).
  destruct (init_proto version uuid now (Some uri) (lit "revisit") hdict) as [P1 P2]. split; [exact P2|exact P1]. }
destruct HV as [V1 V2].
assert (K : forall n, special n = false -> name_eq PD n = false -> occurs n (sh_headers h0) = occurs n hdict).
{ intros n S1 S2. rewrite H. now apply (create_headers_occurs sha1 c). }
assert (only : w_only r = true) by (unfold w_only; now rewrite Q2).
destruct (is_record_written fuel sha1 f' r ws r') as (hb & Hb & Hh & Hr).
{ now rewrite Q3. } { now rewrite Q3. } { rewrite Q1. exact V1. } { rewrite Q1. cbn. change (sh_proto h3) with (sh_proto h0). now rewrite V2. } { exact W. }
rewrite only, app_nil_r in Hr. rewrite Q4 in Hb. cbv zeta. exists hb. split; [exact Hb|]. rewrite Q1 in Hr. change (sh_proto h4) with (sh_proto h0) in Hr. rewrite V2 in Hr. split; [exact Hr|].
rewrite !value_of_hget, Hh.
assert (LO : len_ok r).
{ assert (len_ok r0) as [L1 L2].
  { apply HL; [right; now right|]. intros _. now left. }
  unfold len_ok. rewrite Q5, Q6, Q3, Q4, only. rewrite Eh in L1. split; [exact L1|]. intros _. now right. }
assert (G : forall n, name_eq BD n = false -> name_eq PD n = false -> name_eq CT n = false -> name_eq CL n = false ->
   hget n (sh_headers (w_final sha1 hb r)) = get_header n h4).
{ intros n A B C D. rewrite <- Q1. now apply w_final_get. }
split.
{ change (get_header CL (w_final sha1 hb r) = Some (str_of_Z (lenZ hb))). rewrite w_final_CL.
  - rewrite (w_len_ok f' r hb LO); [|now rewrite Q4]. rewrite only, app_nil_r. reflexivity.
  - rewrite Q1. unfold h4, h3, h2, h1. rewrite !occurs_add. rewrite (K CL eq_refl eq_refl).
    change (name_eq (lit "WARC-Profile") CL) with false. change (name_eq (lit "WARC-Refers-To-Target-URI") CL) with false.
    change (name_eq (lit "WARC-Refers-To-Date") CL) with false. change (name_eq PD CL) with false. cbv iota. lia. }
assert (K0 : forall n, name_eq (lit "WARC-Profile") n = false -> name_eq (lit "WARC-Refers-To-Target-URI") n = false ->
   name_eq (lit "WARC-Refers-To-Date") n = false -> name_eq PD n = false -> get_header n h4 = get_header n h0).
{ intros n A B C D. unfold h4, h3, h2, h1. now rewrite !get_add_other by assumption. }
assert (IT : forall n, name_eq PD n = false -> name_eq BD n = false -> get_header n h0 = get_header n (cr_wh c)).
{ intros n A B. rewrite H. now apply dh_get. }
split.
{ rewrite G, K0, IT by reflexivity. change (cr_wh c) with (init_warc_headers version uuid now (Some uri) (lit "revisit") hdict).
  apply init_type. exact Hty. }
split.
{ rewrite G, K0, IT by reflexivity. change (cr_wh c) with (init_warc_headers version uuid now (Some uri) (lit "revisit") hdict).
  now apply init_uri. }
assert (N0 : forall n, In n [PD; lit "WARC-Refers-To-Target-URI"; lit "WARC-Refers-To-Date"; lit "WARC-Profile"] -> special n = false -> get_header n (cr_wh c) = None).
{ intros n Hin Hs. destruct (cr_wh_keeps c n Hs) as [A _]. apply hget_None_occurs. rewrite A. now apply Hn. }
assert (np0 : c_np (cr_type c) (cr_wh c) = false) by (unfold c_np; cbn; apply andb_false_r).
assert (H00 : h0 = cr_wh c) by (rewrite H, np0; reflexivity).
split.
{ change (get_header PD (w_final sha1 hb r) = Some digest). apply w_final_PD_keep; [|now apply is_nil_false].
  assert (P4 : get_header PD h4 = Some digest).
  { unfold h4. apply get_add_same. unfold h3, h2, h1. rewrite !get_add_other by reflexivity. rewrite H00. apply N0; [now left|reflexivity]. }
  unfold w_base. destruct (wr_length r); [now rewrite Q1|].
  unfold strip_for_unknown. cbn [w_set_headers wr_headers]. rewrite Q1, Q2. rewrite !get_remove_other by reflexivity. cbv iota. 
  change (otype_is (Some (lit "revisit")) "revisit") with true. cbv iota. rewrite get_remove_other by reflexivity. exact P4. }
split; [now apply is_nil_false|].
split.
{ rewrite G by reflexivity. unfold h4, h3. rewrite !get_add_other by reflexivity. unfold h2. apply get_add_same. unfold h1.
  rewrite get_add_other by reflexivity. rewrite H00. apply N0; [right; now left|reflexivity]. }
split.
{ rewrite G by reflexivity. unfold h4. rewrite get_add_other by reflexivity. unfold h3. apply get_add_same. unfold h2, h1.
  rewrite !get_add_other by reflexivity. rewrite H00. apply N0; [right; right; now left|reflexivity]. }
assert (GP : hget (lit "WARC-Profile") (sh_headers (w_final sha1 hb r)) = Some prof).
{ rewrite G by reflexivity. unfold h4, h3, h2. rewrite !get_add_other by reflexivity. unfold h1. apply get_add_same. rewrite H00. apply N0; [do 3 right; now left|reflexivity]. }
split; [intros Hv; rewrite GP; f_equal; now apply Hprof|]. split; [intros Hv; rewrite GP; f_equal; now apply Hprof|].
intros Hbd. change (get_header BD (w_final sha1 hb r) = Some (sha1_text sha1 hb)). rewrite w_final_BD.
- now rewrite Q3, Hrest, app_nil_r.
- assert (occurs BD (sh_headers (w_base r)) = 0%nat) as HB.
  { pose proof (w_base_occurs BD r) as WB. rewrite Q1 in WB. unfold h4, h3, h2, h1 in WB. rewrite !occurs_add in WB.
    rewrite (K BD eq_refl eq_refl), Hbd in WB.
    change (name_eq (lit "WARC-Profile") BD) with false in WB. change (name_eq (lit "WARC-Refers-To-Target-URI") BD) with false in WB.
    change (name_eq (lit "WARC-Refers-To-Date") BD) with false in WB. change (name_eq PD BD) with false in WB. cbv iota in WB. lia. }
  now apply hget_None_occurs.
Qed.

Lemma C30_pair_partial_pf :
  forall fuel sha1 k o req resp ws,
  0 <= py_pos (wr_stream resp) -> (List.length (ps_rest (wr_stream resp)) + 3 <= fuel)%nat ->
  0 <= py_pos (wr_stream req) -> (List.length (ps_rest (wr_stream req)) + 3 <= fuel)%nat ->
  sh_status (wr_headers resp) = [] -> sh_proto (wr_headers resp) <> [] ->
  sh_status (wr_headers req) = [] -> sh_proto (wr_headers req) <> [] ->
  (occurs (lit "WARC-Target-URI") (sh_headers (wr_headers req)) <= 1)%nat ->
  (occurs (lit "WARC-Date") (sh_headers (wr_headers req)) <= 1)%nat ->
  occurs (lit "WARC-Concurrent-To") (sh_headers (wr_headers req)) = 0%nat ->
  write_pair fuel sha1 k o req resp = (Ok tt, ws) ->
  exists ws1 ws2 hs1 hs2 b1 b2 url date,
    is_record (sh_proto (wr_headers resp)) hs1 b1 (concat ws1)
    /\ is_record (sh_proto (wr_headers req)) hs2 b2 (concat ws2)
    /\ concat ws = (if wo_gzip o then deflated k (kinit k) ws1 ++ deflated k (kinit k) ws2 else concat ws1 ++ concat ws2)
    /\ value_of (lit "WARC-Target-URI") hs1 = Some url /\ value_of (lit "WARC-Target-URI") hs2 = Some url
    /\ value_of (lit "WARC-Date") hs1 = Some date /\ value_of (lit "WARC-Date") hs2 = Some date
    /\ forall i, value_of (lit "WARC-Record-ID") hs1 = Some i -> i <> [] ->
                 value_of (lit "WARC-Concurrent-To") hs2 = Some i.
Proof.
intros fuel sha1 k o req resp ws Hp1 Hf1 Hp2 Hf2 S1 P1 S2 P2 Ou Od Oc.
unfold write_pair, write_record.
destruct (write_plain fuel sha1 (wo_filter o) resp) as [[x1 ws1] r1] eqn:W1.
destruct x1 as [[]|e]; [|discriminate].
unfold link_request.
destruct (get_header (lit "WARC-Target-URI") (wr_headers resp)) as [url|] eqn:Eu; [|discriminate].
destruct (get_header (lit "WARC-Date") (wr_headers resp)) as [date|] eqn:Ed; [|discriminate].
set (h1 := replace_header_ (lit "WARC-Target-URI") url (wr_headers req)).
set (h2 := replace_header_ (lit "WARC-Date") date h1).
set (h3 := match get_header (lit "WARC-Record-ID") (wr_headers resp) with Some ((_ :: _) as i) => add_header (lit "WARC-Concurrent-To") i h2 | _ => h2 end).
destruct (write_plain fuel sha1 (wo_filter o) (w_set_headers h3 req)) as [[x2 ws2] r2] eqn:W2.
destruct x2 as [[]|e]; [|discriminate]. intros E. injection E as <-.
assert (HH : sh_status h3 = [] /\ sh_proto h3 = sh_proto (wr_headers req)).
{ assert (A : sh_status h2 = [] /\ sh_proto h2 = sh_proto (wr_headers req)).
  { unfold h2, h1. rewrite !(proj1 (proto_replace _ _ _)), !(proj2 (proto_replace _ _ _)). now split. }
  unfold h3. destruct (get_header (lit "WARC-Record-ID") (wr_headers resp)) as [[|y i]|]; exact A. }
destruct HH as [Hs3 Hp3].
destruct (is_record_written fuel sha1 (wo_filter o) resp ws1 r1 Hp1 ltac:(lia) S1 P1 W1) as (hb1 & _ & Eh1 & R1).
destruct (is_record_written fuel sha1 (wo_filter o) (w_set_headers h3 req) ws2 r2) as (hb2 & _ & Eh2 & R2).
{ exact Hp2. } { cbn. lia. } { exact Hs3. } { cbn. now rewrite Hp3. } { exact W2. }
cbn [w_set_headers wr_headers] in R2. rewrite Hp3 in R2.
exists ws1, ws2, (sh_headers (wr_headers r1)), (sh_headers (wr_headers r2)). eexists _, _. exists url, date.
split; [exact R1|]. split; [exact R2|]. split; [destruct (wo_gzip o); rewrite concat_app, ?gz_writes_deflated; reflexivity|].
rewrite !value_of_hget, Eh1, Eh2.
assert (G1 : forall n, name_eq BD n = false -> name_eq PD n = false -> name_eq CT n = false -> name_eq CL n = false ->
   hget n (sh_headers (w_final sha1 hb1 resp)) = get_header n (wr_headers resp)) by (intros; now apply w_final_get).
assert (G2 : forall n, name_eq BD n = false -> name_eq PD n = false -> name_eq CT n = false -> name_eq CL n = false ->
   hget n (sh_headers (w_final sha1 hb2 (w_set_headers h3 req))) = get_header n h3).
{ intros n A B C D. etransitivity; [apply (w_final_get sha1 n hb2 (w_set_headers h3 req) A B C D)|reflexivity]. }
assert (K3 : forall n, name_eq (lit "WARC-Concurrent-To") n = false -> get_header n h3 = get_header n h2).
{ intros n A. unfold h3. destruct (get_header (lit "WARC-Record-ID") (wr_headers resp)) as [[|y i]|]; rewrite ?get_add_other by assumption; reflexivity. }
assert (U2 : get_header (lit "WARC-Target-URI") h2 = Some url).
{ unfold h2. rewrite get_replace_other by reflexivity. now apply get_replace_same. }
assert (D2 : get_header (lit "WARC-Date") h2 = Some date).
{ unfold h2. apply get_replace_same. unfold h1. rewrite occurs_replace. exact Od. }
rewrite !G1, !G2, !K3 by reflexivity. split; [exact Eu|]. split; [exact U2|]. split; [exact Ed|]. split; [exact D2|].
intros i Ei Hi.
unfold h3. rewrite Ei. destruct i as [|y i]; [contradiction|]. apply get_add_same. apply hget_None_occurs.
unfold h2, h1. rewrite !occurs_replace. exact Oc.
Qed.

Lemma C30_no_uri_refuted_pf :
  exists req resp ws,
  write_pair 200 toy_hash toy_k (mk_wopts (lit "WARC/1.0") None false) req resp = (Err TypeErr, ws)
  /\ ws <> [] /\ value_of (lit "WARC-Target-URI") (sh_headers (wr_headers resp)) = None.
Proof.
exists (mk_wrec (Some (lit "request")) (sah_new [] [(lit "WARC-Type", lit "request")] (lit "WARC/1.0")) (bytesio []) None None None (Some 0) (Some 0)).
exists (mk_wrec (Some (lit "response")) (sah_new [] [(lit "WARC-Type", lit "response")] (lit "WARC/1.0")) (bytesio []) None None None (Some 0) (Some 0)).
eexists. split; [vm_compute; reflexivity|]. split; [discriminate|reflexivity].
Qed.

(** the same call with another payload stream and another length argument *)
Definition with_payload (c : creation) (p : pstream) (n : option Z) : creation :=
  mk_creation (cr_version c) (cr_uuid c) (cr_now c) (cr_uri c) (cr_type c) (Some p) n
              (cr_ctype c) (cr_hdict c) (cr_whdrs c) (cr_http c).

Lemma C31_unknown_length_pf :
  forall fuel sha1 f f' c p1 n1 p2 n2 r1 ws1 r1',
  let c1 := with_payload c p1 n1 in let c2 := with_payload c p2 n2 in
  py_all p1 = py_all p2 -> (py_all p1 <> [] \/ osah_bool (cr_http c) = true) ->
  (List.length (py_all p1) + 3 <= fuel)%nat -> length_right c1 -> length_right c2 ->
  occurs (lit "WARC-Block-Digest") (given_headers c) = 0%nat ->
  occurs (lit "WARC-Payload-Digest") (given_headers c) = 0%nat ->
  occurs (lit "Content-Type") (given_headers c) = 0%nat ->
  create fuel sha1 f c1 = Ok r1 -> http_not_empty c1 r1 -> revisit_fits c1 r1 ->
  write_plain fuel sha1 f' r1 = (Ok tt, ws1, r1') ->
  exists r2 ws2 r2',
    create fuel sha1 f c2 = Ok r2 /\ write_plain fuel sha1 f' r2 = (Ok tt, ws2, r2')
    /\ concat ws2 = concat ws1 /\ wr_headers r2' = wr_headers r1'.
Proof.
intros fuel sha1 f f' c p1 n1 p2 n2 r1 ws1 r1' c1 c2 Eall Hne Hf L1 L2 B0 P0 T0 E1 N1 V1 W1.
assert (Hf2 : (List.length (py_all p2) + 3 <= fuel)%nat) by now rewrite <- Eall.
pose proof L1 as [Q1 M1]. pose proof L2 as [Q2 M2]. cbn [cr_length c1 c2 with_payload] in M1, M2.
assert (S : ps_same p1 p2) by (split; [assumption|now rewrite Q1, Q2]).
assert (I1 : ps_in p1) by (unfold ps_in; pose proof (lenZ_nonneg (py_all p1)); lia).
assert (I2 : ps_in p2) by (unfold ps_in; pose proof (lenZ_nonneg (py_all p2)); lia).
assert (R1 : ps_rest p1 = py_all p1) by (unfold ps_rest; rewrite Q1; now apply dropZ_0).
assert (R2 : ps_rest p2 = py_all p2) by (unfold ps_rest; rewrite Q2; now apply dropZ_0).
(* the second creation *)
assert (C2 : exists r2, create fuel sha1 f c2 = Ok r2 /\ wr_http r2 = wr_http r1 /\ ps_rest (wr_stream r2) = ps_rest (wr_stream r1)).
{ destruct (fun H => create_ok fuel sha1 _ _ _ _ _ _ _ _ _ _ _ _ r1 H E1) as (http' & p' & len' & Hst & T1 & T2 & T3 & T4 & T5 & T6 & T7 & T8 & T9).
  { cbn. split; [exact I1|]. now rewrite R1. }
  cbn [cr_payload c1 with_payload cr_http cr_type cr_uri cr_length] in Hst. rewrite T2, T5.
  destruct (osah_bool (cr_http c)) eqn:Eo.
  - destruct Hst as (-> & -> & ->).
    destruct (create_fwd fuel sha1 f c2 p2 (cr_http c) p2 n2) as (r2 & A & B & C).
    { reflexivity. } { unfold step1. cbn [cr_http c2 with_payload cr_length]. now rewrite Eo. } { exact I2. } { rewrite R2. lia. }
    exists r2. split; [exact A|]. split; [exact B|]. now rewrite C, R1, R2.
  - destruct Hst as (Hld & _). destruct Hne as [Hne|Hne]; [|discriminate].
    assert (Z : lenZ (py_all p1) <> 0) by (intros Z; apply lenZ_0 in Z; contradiction).
    rewrite load_http_len in Hld by (destruct M1 as [->| ->]; congruence).
    destruct (load_http_sim ps_ops ps_ops ps_same fuel true (Some (cr_type c)) (cr_uri c) None p1 p2 ps_same_readline S) as [X1 X2].
    rewrite Hld in X1, X2. destruct (load_http_headers ps_ops fuel true (Some (cr_type c)) (cr_uri c) None p2) as [x q] eqn:E2.
    cbn [fst snd] in X1, X2. subst x.
    assert (Hld2 : load_http_headers ps_ops fuel true (Some (cr_type c)) (cr_uri c) n2 p2 = (Ok http', q)).
    { rewrite load_http_len; [exact E2|]. destruct M2 as [->| ->]; congruence. }
    destruct (load_http_ok fuel true (Some (cr_type c)) (cr_uri c) n2 p2 http' q I2 ltac:(now rewrite R2) Hld2) as (A & B & blk & C & _).
    destruct (create_fwd fuel sha1 f c2 p2 http' q (if osah_bool http' then match n2 with Some n => Some (n - py_pos q) | None => None end else n2)) as (r2 & A2 & B2 & C2).
    { reflexivity. } { unfold step1. cbn [cr_http c2 with_payload cr_length cr_type cr_uri]. rewrite Eo, Hld2. reflexivity. } { exact B. }
    { rewrite R2 in C. apply (f_equal (@List.length N)) in C. rewrite app_length in C. lia. }
    exists r2. split; [exact A2|]. split; [exact B2|]. rewrite C2. symmetry. now apply ps_same_rest. }
destruct C2 as (r2 & E2 & Eh & Er).
destruct (create_facts fuel sha1 f c1 r1 Hf L1 E1) as (_ & Hp1 & Hf1 & Ht1 & Hc1 & H1 & LO1 & _).
destruct (create_facts fuel sha1 f c2 r2 Hf2 L2 E2) as (_ & Hp2 & Hf2' & Ht2 & Hc2 & H2 & LO2 & _).
destruct (write_plain_ok fuel sha1 f' r1 ws1 r1' Hp1 Hf1 W1) as (hb & head & Hb & Hhd & Hh & Ho & _).
assert (O : w_only r2 = w_only r1) by (unfold w_only; now rewrite Ht1, Ht2).
assert (F : w_final sha1 hb r2 = w_final sha1 hb r1).
{ unfold w_final.
  rewrite (created_final fuel sha1 f c1 r1 hb Hf L1 E1 B0 P0 T0), (created_final fuel sha1 f c2 r2 hb Hf2 L2 E2 B0 P0 T0).
  rewrite (w_len_ok f' r1 hb (LO1 N1 V1) Hb). rewrite (w_len_ok f' r2 hb); [| |now rewrite Eh].
  - rewrite O, Er. unfold w_ctype. rewrite Hc1, Hc2. reflexivity.
  - apply LO2; unfold no_empty_http, revisit_ok; rewrite Eh; [destruct N1 as [N|[N|N]]; [now left|right; now left|discriminate]|].
    intros Hv. destruct (V1 Hv) as [X|X]; [left; cbn in *; now rewrite <- Eall|now right]. }
assert (Hb2 : http_block f' (wr_http r2) hb) by now rewrite Eh.
pose proof (write_plain_fwd fuel sha1 f' r2 hb Hp2 Hf2' Hb2) as W2. rewrite F, Hhd in W2.
destruct W2 as (ws2 & r2' & W2 & G1 & G2 & _). exists r2, ws2, r2'. split; [exact E2|]. split; [exact W2|].
split; [now rewrite G2, Ho, O, Er|]. now rewrite G1, Hh.
Qed.

Lemma C32_write_twice_partial_pf :
  forall fuel sha1 f r ws r',
  0 <= py_pos (wr_stream r) -> (List.length (ps_rest (wr_stream r)) + 3 <= fuel)%nat -> wr_orig r = None ->
  (occurs (lit "WARC-Block-Digest") (sh_headers (wr_headers r)) <= 1)%nat ->
  (occurs (lit "WARC-Payload-Digest") (sh_headers (wr_headers r)) <= 1)%nat ->
  value_of (lit "WARC-Block-Digest") (sh_headers (wr_headers r)) <> Some [] ->
  value_of (lit "WARC-Payload-Digest") (sh_headers (wr_headers r)) <> Some [] ->
  (wr_type r = Some (lit "revisit") \/ ps_rest (wr_stream r) = []) ->
  write_plain fuel sha1 f r = (Ok tt, ws, r') ->
  exists ws2 r2, write_plain fuel sha1 f r' = (Ok tt, ws2, r2) /\ concat ws2 = concat ws.
Proof.
intros fuel sha1 f r ws r' Hp Hf Ho B1 P1 B2 P2 Hr W. rewrite value_of_hget in B2, P2.
destruct (write_twice fuel sha1 f r ws r' Hp ltac:(lia) Ho) as (ws2 & r2 & E & C & _).
- repeat split; assumption.
- destruct Hr as [Hr|Hr]; [left; unfold w_only; now rewrite Hr|now right].
- exact W.
- exists ws2, r2. auto.
Qed.

Lemma C32_refuted_pf :
  exists r ws r' ws2 r2 b1 b2,
  create 200 toy_hash None (ex_c "resource" (Some (bytesio (lit "hello"))) (Some 5) None) = Ok r
  /\ write_plain 200 toy_hash None r = (Ok tt, ws, r') /\ write_plain 200 toy_hash None r' = (Ok tt, ws2, r2)
  /\ is_record (lit "WARC/1.0") (sh_headers (wr_headers r')) b1 (concat ws) /\ b1 = lit "hello"
  /\ is_record (lit "WARC/1.0") (sh_headers (wr_headers r2)) b2 (concat ws2) /\ b2 = []
  /\ value_of (lit "Content-Length") (sh_headers (wr_headers r2)) = Some (lit "5").
Proof.
destruct (create 200 toy_hash None (ex_c "resource" (Some (bytesio (lit "hello"))) (Some 5) None)) as [r|e] eqn:Ec; [|vm_compute in Ec; discriminate].
assert (Er : r = match create 200 toy_hash None (ex_c "resource" (Some (bytesio (lit "hello"))) (Some 5) None) with Ok r => r | Err _ => r end) by now rewrite Ec.
destruct (write_plain 200 toy_hash None r) as [[x ws] r'] eqn:Ew.
destruct (write_plain 200 toy_hash None r') as [[x2 ws2] r2] eqn:Ew2.
exists r, ws, r', ws2, r2, (lit "hello"), []. vm_compute in Er. subst r. vm_compute in Ew. injection Ew as <- <- <-. vm_compute in Ew2. injection Ew2 as <- <- <-.
split; [reflexivity|]. split; [vm_compute; reflexivity|]. split; [vm_compute; reflexivity|].
split; [eexists; split; vm_compute; reflexivity|]. split; [reflexivity|]. split; [eexists; split; vm_compute; reflexivity|].
split; [reflexivity|vm_compute; reflexivity].
Qed.
