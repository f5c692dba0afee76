(** * Thm_Commands: proofs of the theorems restated in Props_Commands.v *)
From Coq Require Import String List ZArith NArith Bool.
From Verif Require Import PyBase Headers Streams StreamSpec DigestSpec Loader Iterator Writer WriterSpec IterSpec RoundSpec Cli CliSpec RewriteSpec SelfSpec Toy Commands.
Import ListNotations.
Open Scope Z_scope.

From Coq Require Import Lia ZifyBool ZifyNat ZifyN.
From Verif Require Import Facts Thm_Cli Thm_Rewrite Thm_Link.

(** the files a command is given to read, and the file it is told to write *)
Definition inputs_of (c : command) : list str :=
  match c with
  | CIndex inputs _ _ => inputs
  | CRecompress filename _ _ => [filename]
  | CExtract filename _ _ _ => [filename]
  | CCheck inputs _ => inputs
  end.
Definition output_of (c : command) : option str :=
  match c with
  | CIndex _ _ output => output
  | CRecompress _ output _ => Some output
  | _ => None
  end.
(** a name that denotes a file: not empty, not '-' *)
Definition file_name (name : str) : Prop := name <> [] /\ name <> lit "-".
(** the file [name] exists and contains [data] *)
Definition has_file (fs : files) (name : str) (data : bytes) : Prop := file_name name /\ fs name = Some data.

Lemma leqb_true a b : leqb a b = true <-> a = b.
Proof. apply leqb_eq. Qed.
Lemma leqb_false a b : a <> b -> leqb a b = false.
Proof. intros H. destruct (leqb a b) eqn:E; [|reflexivity]. apply leqb_eq in E. contradiction. Qed.
Lemma set_other name b fs x : x <> name -> set_file name b fs x = fs x.
Proof. intros H. unfold set_file. now rewrite leqb_false. Qed.
Lemma set_same name b fs : set_file name b fs name = Some b.
Proof. unfold set_file. now rewrite (proj2 (leqb_eq name name) eq_refl). Qed.
Lemma is_default_false name : file_name name -> is_default name = false.
Proof. intros [H1 H2]. unfold is_default. rewrite (leqb_false _ _ H2). destruct name; [contradiction|reflexivity]. Qed.
Lemma open_has fs name data : has_file fs name data -> open_read fs name = RFile data.
Proof. intros [H1 H2]. unfold open_read. now rewrite (is_default_false name H1), H2. Qed.
Lemma write_has cw name : file_name name -> cw name = true -> open_write cw (Some name) = WFile name.
Proof. intros H1 H2. unfold open_write. now rewrite (is_default_false name H1), H2. Qed.
Lemma open_write_file cw o x : open_write cw o = WFile x -> o = Some x.
Proof. unfold open_write. destruct o as [y|]; [|discriminate]. destruct (is_default y); [discriminate|]. destruct (cw y); [|discriminate]. now intros [= ->]. Qed.

Lemma C102_frame_pf :
  forall (zl : zenv) fuel he sha1 k uuid dumps size can_write n c fs stdin fs' ps o,
  run_command (zl:=zl) fuel he sha1 k uuid dumps size can_write n c fs stdin = (fs', ps, o) ->
  forall name, output_of c <> Some name -> fs' name = fs name.
Proof.
intros zl fuel he sha1 k uuid dumps size cw n c fs stdin fs' ps o E name Hn. destruct c as [inputs fields output|filename output verbose|filename offset pl hd|inputs verbose]; cbn [run_command output_of] in *.
- unfold run_index in E. destruct (open_write cw output) as [|x|] eqn:Ew.
  + destruct (index_inputs _ _ _ _ _ _ _ _ _) in E. now injection E as <- _ _.
  + apply open_write_file in Ew. subst output. destruct (index_inputs _ _ _ _ _ _ _ _ _) in E. injection E as <- _ _. apply set_other. congruence.
  + now injection E as <- _ _.
- assert (Ho : name <> output) by congruence. unfold run_recompress in E.
  assert (G : forall h : whandle, (h = WDefault \/ h = WFile output) -> forall b, match h with WFile nm => set_file nm b fs | _ => fs end name = fs name).
  { intros h [->| ->] b; [reflexivity|now apply set_other]. }
  assert (Hw : match open_write cw (Some output) with WFail => True | h => h = WDefault \/ h = WFile output end).
  { destruct (open_write cw (Some output)) as [|x|] eqn:Ew; [now left|apply open_write_file in Ew; injection Ew as ->; now right|exact Logic.I]. }
  assert (K : forall h x b, (h = WDefault \/ h = WFile output) ->
     (let fs2 := match h with WFile name => set_file name b fs | _ => fs end in
      match x with
      | Err OutOfFuel => (fs2, [], Raised OutOfFuel)
      | Err _ => (fs2, [PFailed filename], Exited 1)
      | Ok (c, fixed) =>
          if verbose then
            match run_index (zl:=zl) fuel he uuid dumps cw n [output] DEFAULT_FIELDS None fs2 stdin with
            | (_, ps, Returned) => (fs2, ps ++ [PCount c output; PFixed fixed], Returned)
            | (_, ps, Raised OutOfFuel) => (fs2, ps, Raised OutOfFuel)
            | (_, ps, _) => (fs2, ps ++ [PFailed filename], Exited 1)
            end
          else (fs2, [PCount c output; PFixed fixed], Returned)
      end) = (fs', ps, o) -> fs' name = fs name).
  { intros h x b Hh. cbv zeta. pose proof (G h Hh b) as Gb.
    set (fs2 := match h with WFile name => set_file name b fs | _ => fs end) in *. clearbody fs2.
    destruct x as [[c fixed]|e].
    - destruct verbose; [|now intros [= <- _ _]]. destruct (run_index fuel he uuid dumps cw n [output] DEFAULT_FIELDS None fs2 stdin) as [[? ps'] o']. destruct o' as [| |e'| |]; try (destruct e'); cbv beta iota; (intros Q; injection Q; intros; subst; exact Gb).
    - destruct e; now intros [= <- _ _]. }
  assert (E2 : (fs', ps, o) = (fs, [PFailed filename], Exited 1) \/ exists h x b, (h = WDefault \/ h = WFile output) /\ forall P : files * list printed * outcome -> Prop, P (fs', ps, o) -> P (
      let fs2 := match h with WFile name => set_file name b fs | _ => fs end in
      match x with
      | Err OutOfFuel => (fs2, [], Raised OutOfFuel)
      | Err _ => (fs2, [PFailed filename], Exited 1)
      | Ok (c, fixed) =>
          if verbose then
            match run_index (zl:=zl) fuel he uuid dumps cw n [output] DEFAULT_FIELDS None fs2 stdin with
            | (_, ps, Returned) => (fs2, ps ++ [PCount c output; PFixed fixed], Returned)
            | (_, ps, Raised OutOfFuel) => (fs2, ps, Raised OutOfFuel)
            | (_, ps, _) => (fs2, ps ++ [PFailed filename], Exited 1)
            end
          else (fs2, [PCount c output; PFixed fixed], Returned)
      end)).
  { rewrite <- E. clear E. destruct (open_read fs filename); [| |now left];
    (destruct (open_write cw (Some output)) as [|x|] eqn:Ew; [right; exists WDefault|destruct Hw as [Hw|Hw]; [discriminate|]; injection Hw as ->; right; exists (WFile output)|now left]);
    cbv zeta; first [exists (Err AttributeErr), ([] : bytes); (split; [auto|intros P HP; exact HP])|match goal with |- context [let '(x, b) := ?M in _] => destruct M as [x b] end; exists x, b; (split; [auto|intros P HP; exact HP])]. }
  destruct E2 as [[= -> _ _]|(h & x & b & Hh & HP)]; [reflexivity|]. refine (K h x b Hh _). exact (eq_sym (HP (fun y => (fs', ps, o) = y) eq_refl)).
- destruct (run_extract _ _ _ _ _ _ _ _) in E. now injection E as <- _ _.
- destruct (check_inputs _ _ _ _ _ _ _ _) in E. now injection E as <- _ _.
Qed.

Lemma open_same (fs1 fs2 : files) name : fs1 name = fs2 name -> open_read fs1 name = open_read fs2 name.
Proof. intros H. unfold open_read. now rewrite H. Qed.
Lemma index_inputs_same (zl : zenv) fuel he n uuid dumps fields fs1 fs2 : forall inputs stdin,
  (forall name, In name inputs -> open_read fs1 name = open_read fs2 name) ->
  index_inputs (zl:=zl) fuel he uuid dumps n fields fs1 stdin inputs = index_inputs (zl:=zl) fuel he uuid dumps n fields fs2 stdin inputs.
Proof.
  induction inputs as [|name t IH]; intros stdin H; [reflexivity|]. cbn [index_inputs]. rewrite (H name) by now left.
  destruct (open_read fs2 name); try reflexivity; destruct (index_file _ _ _ _ _ _ _ _) as [ds [|e]]; try reflexivity; rewrite (IH _ (fun x Hx => H x (or_intror Hx))); reflexivity.
Qed.
Lemma check_inputs_same (zl : zenv) fuel he n uuid verbose fs1 fs2 : forall inputs ev,
  (forall name, In name inputs -> open_read fs1 name = open_read fs2 name) ->
  check_inputs (zl:=zl) fuel he uuid n verbose ev fs1 inputs = check_inputs (zl:=zl) fuel he uuid n verbose ev fs2 inputs.
Proof.
  induction inputs as [|name t IH]; intros ev H; [reflexivity|]. cbn [check_inputs]. rewrite (H name) by now left.
  destruct (open_read fs2 name); try reflexivity. destruct (check_all _ _ _ _ _ _ _) as [[v|e] m]; try reflexivity. now rewrite (IH _ (fun x Hx => H x (or_intror Hx))).
Qed.
Lemma set_both (fs1 fs2 : files) out b name : open_read fs1 name = open_read fs2 name -> open_read (set_file out b fs1) name = open_read (set_file out b fs2) name.
Proof. intros H. unfold open_read, set_file in *. destruct (is_default name); [reflexivity|]. now destruct (leqb name out). Qed.

Lemma C102_reads_pf :
  forall (zl : zenv) fuel he sha1 k uuid dumps size can_write n c fs1 fs2 stdin,
  (forall name, In name (inputs_of c) -> fs1 name = fs2 name) ->
  let run fs := run_command (zl:=zl) fuel he sha1 k uuid dumps size can_write n c fs stdin in
  snd (fst (run fs1)) = snd (fst (run fs2)) /\ snd (run fs1) = snd (run fs2)
  /\ forall name, output_of c = Some name ->
     fst (fst (run fs1)) name = fst (fst (run fs2)) name \/ (fst (fst (run fs1)) = fs1 /\ fst (fst (run fs2)) = fs2).
Proof.
intros zl fuel he sha1 k uuid dumps size cw n c fs1 fs2 stdin H run. unfold run. clear run.
assert (HO : forall name, In name (inputs_of c) -> open_read fs1 name = open_read fs2 name) by (intros; apply open_same; auto). clear H.
destruct c as [inputs fields output|filename output verbose|filename offset pl hd|inputs verbose]; cbn [run_command output_of inputs_of] in *.
- assert (HI : forall name, In name (if is_nil inputs then [lit "-"] else inputs) -> open_read fs1 name = open_read fs2 name).
  { intros name Hn. destruct inputs as [|i0 t]; [|now apply HO]. destruct Hn as [<-|[]]. reflexivity. }
  unfold run_index. destruct (open_write cw output) as [|x|] eqn:Ew.
  + rewrite (index_inputs_same zl fuel he n uuid dumps _ fs1 fs2 _ stdin HI). destruct (index_inputs _ _ _ _ _ _ _ _ _) as [t o]. cbn. auto.
  + rewrite (index_inputs_same zl fuel he n uuid dumps _ (set_file x [] fs1) (set_file x [] fs2) _ stdin (fun a Ha => set_both fs1 fs2 x [] a (HI a Ha))).
    destruct (index_inputs _ _ _ _ _ _ _ _ _) as [t o]. cbn. split; [reflexivity|]. split; [reflexivity|]. intros name E. left. apply open_write_file in Ew. rewrite Ew in E. injection E as ->. now rewrite !set_same.
  + cbn. auto.
- specialize (HO filename (or_introl eq_refl)). unfold run_recompress.
  assert (HO' : forall y, open_read (set_file y [] fs1) filename = open_read (set_file y [] fs2) filename) by (intros; now apply set_both). rewrite HO.
  destruct (open_read fs2 filename) as [|data|] eqn:E2.
  3: cbn; auto.
  all: destruct (open_write cw (Some output)) as [|x|] eqn:Ew; [| |cbn; auto].
  all: cbv zeta; try rewrite HO'; try rewrite HO; try rewrite E2.
  all: try match goal with |- context [open_read (set_file ?y [] ?f) ?g] => destruct (open_read (set_file y [] f) g) end.
  all: try match goal with |- context [recompress_out ?a ?b ?c ?d ?e ?f ?g ?h ?i] => destruct (recompress_out a b c d e f g h i) as [[[c0 fx]|e0] b0] end.
  all: try (apply open_write_file in Ew; injection Ew as <-).
  all: try (destruct e0; cbn [fst snd]; (split; [reflexivity|]); (split; [reflexivity|]); intros name [= <-]; ((left; rewrite !set_same; reflexivity) || (right; split; reflexivity))).
  all: try (cbn [fst snd]; (split; [reflexivity|]); (split; [reflexivity|]); intros name [= <-]; ((left; rewrite !set_same; reflexivity) || (right; split; reflexivity))).
  all: destruct verbose; try (cbn [fst snd]; (split; [reflexivity|]); (split; [reflexivity|]); intros name [= <-]; ((left; rewrite !set_same; reflexivity) || (right; split; reflexivity))).
  + assert (Er : forall f, run_index (zl:=zl) fuel he uuid dumps cw n [output] DEFAULT_FIELDS None f stdin
        = (f, [PText (fst (index_inputs (zl:=zl) fuel he uuid dumps n (split_fields DEFAULT_FIELDS) f stdin [output]))], snd (index_inputs (zl:=zl) fuel he uuid dumps n (split_fields DEFAULT_FIELDS) f stdin [output]))).
    { intros f. unfold run_index. cbn [is_nil open_write]. now destruct (index_inputs _ _ _ _ _ _ _ _ _). }
    rewrite !Er, (index_inputs_same zl fuel he n uuid dumps _ (set_file output b0 fs1) (set_file output b0 fs2) [output] stdin).
    2: { intros name [<-|[]]. apply open_same. now rewrite !set_same. }
    destruct (index_inputs _ _ _ _ _ _ _ _ _) as [t o]. cbn [fst snd]. destruct o as [| |e| |]; try destruct e; cbn [fst snd]; (split; [reflexivity|]); (split; [reflexivity|]); intros name [= <-]; left; now rewrite !set_same.
  + assert (Er : forall f, run_index (zl:=zl) fuel he uuid dumps cw n [output] DEFAULT_FIELDS None f stdin
        = (f, [PText (fst (index_inputs (zl:=zl) fuel he uuid dumps n (split_fields DEFAULT_FIELDS) f stdin [output]))], snd (index_inputs (zl:=zl) fuel he uuid dumps n (split_fields DEFAULT_FIELDS) f stdin [output]))).
    { intros f. unfold run_index. cbn [is_nil open_write]. now destruct (index_inputs _ _ _ _ _ _ _ _ _). }
    rewrite !Er, (index_inputs_same zl fuel he n uuid dumps _ fs1 fs2 [output] stdin).
    2: { intros name [<-|[]]. unfold open_write in Ew. unfold open_read. destruct (is_default output); [reflexivity|]. destruct (cw output); discriminate. }
    destruct (index_inputs _ _ _ _ _ _ _ _ _) as [t o]. cbn [fst snd]. destruct o as [| |e| |]; try destruct e; cbn [fst snd]; auto.
  + assert (Er : forall f, run_index (zl:=zl) fuel he uuid dumps cw n [output] DEFAULT_FIELDS None f stdin
        = (f, [PText (fst (index_inputs (zl:=zl) fuel he uuid dumps n (split_fields DEFAULT_FIELDS) f stdin [output]))], snd (index_inputs (zl:=zl) fuel he uuid dumps n (split_fields DEFAULT_FIELDS) f stdin [output]))).
    { intros f. unfold run_index. cbn [is_nil open_write]. now destruct (index_inputs _ _ _ _ _ _ _ _ _). }
    rewrite !Er, (index_inputs_same zl fuel he n uuid dumps _ (set_file output b0 fs1) (set_file output b0 fs2) [output] stdin).
    2: { intros name [<-|[]]. apply open_same. now rewrite !set_same. }
    destruct (index_inputs _ _ _ _ _ _ _ _ _) as [t o]. cbn [fst snd]. destruct o as [| |e| |]; try destruct e; cbn [fst snd]; (split; [reflexivity|]); (split; [reflexivity|]); intros name [= <-]; left; now rewrite !set_same.
- specialize (HO filename (or_introl eq_refl)). unfold run_extract. rewrite HO. match goal with |- context [let (ps, o) := ?M in _] => destruct M as [ps o] end. cbn [fst snd]. repeat split; try reflexivity. discriminate.
- rewrite (check_inputs_same zl fuel he n uuid verbose fs1 fs2 inputs 0 HO). destruct (check_inputs _ _ _ _ _ _ _ _). cbn. repeat split; auto.
Qed.

Lemma index_empty (zl : zenv) fuel he n uuid name fields : index_file (zl:=zl) (S (S fuel)) he (S n) false uuid name fields (raw_open [] []) = ([], EndStop).
Proof. lazy. reflexivity. Qed.
Lemma load_empty (zl : zenv) fuel he n sha1 k uuid : load_and_write (zl:=zl) (S (S fuel)) he (S n) sha1 k uuid (raw_open [] []) = (O, [], None).
Proof. lazy. reflexivity. Qed.

Lemma C102_in_place_refuted_pf :
  forall (zl : zenv) fuel he sha1 k uuid dumps size can_write n fs stdin name data,
  has_file fs name data -> can_write name = true ->
  (exists fs', run_command (zl:=zl) (2 + fuel) he sha1 k uuid dumps size can_write (1 + n) (CRecompress name name false) fs stdin
     = (fs', [PCount 0 name; PFixed false], Returned) /\ fs' name = Some [])
  /\ (forall fields, exists fs', run_command (zl:=zl) (2 + fuel) he sha1 k uuid dumps size can_write (1 + n) (CIndex [name] fields (Some name)) fs stdin
     = (fs', [], Returned) /\ fs' name = Some []).
Proof.
intros zl fuel he sha1 k uuid dumps size cw n fs stdin name data Hf Hw. pose proof (open_has fs name data Hf) as Eo. destruct Hf as [Hf _].
pose proof (write_has cw name Hf Hw) as Ew.
assert (E1 : open_read (set_file name [] fs) name = RFile []) by (apply open_has; split; [exact Hf|apply set_same]).
change (2 + fuel)%nat with (S (S fuel)). change (1 + n)%nat with (S n). split.
- cbn [run_command]. unfold run_recompress. rewrite Eo, Ew. cbv zeta. rewrite E1. unfold recompress_out. rewrite load_empty. cbn [attempt orb List.concat].
  eexists. split; [reflexivity|apply set_same].
- intros fields. cbn [run_command]. unfold run_index. rewrite Ew. cbn [is_nil index_inputs]. rewrite E1. rewrite index_empty. cbn [index_text flat_map app].
  eexists. split; [reflexivity|apply set_same].
Qed.

Lemma C102_failed_refuted_pf :
  forall (zl : zenv) fuel he sha1 k uuid dumps size can_write n fs stdin out missing fields,
  file_name out -> can_write out = true -> file_name missing -> missing <> out -> fs missing = None ->
  exists fs', run_command (zl:=zl) fuel he sha1 k uuid dumps size can_write n (CIndex [missing] fields (Some out)) fs stdin = (fs', [], OsError)
    /\ fs' out = Some [].
Proof.
intros zl fuel he sha1 k uuid dumps size cw n fs stdin out missing fields Ho Hw Hm Hne Hfs. cbn [run_command]. unfold run_index. rewrite (write_has cw out Ho Hw).
assert (E : open_read (set_file out [] fs) missing = RMissing) by (unfold open_read; rewrite (is_default_false missing Hm), set_other by exact Hne; now rewrite Hfs).
cbn [is_nil index_inputs]. rewrite E. eexists. split; [reflexivity|apply set_same].
Qed.

Lemma C102_missing_pf :
  forall (zl : zenv) fuel he sha1 k uuid dumps size can_write n fs stdin out missing verbose,
  file_name missing -> fs missing = None ->
  run_command (zl:=zl) fuel he sha1 k uuid dumps size can_write n (CRecompress missing out verbose) fs stdin = (fs, [PFailed missing], Exited 1).
Proof.
intros zl fuel he sha1 k uuid dumps size cw n fs stdin out missing verbose Hm Hfs. cbn [run_command]. unfold run_recompress, open_read. now rewrite (is_default_false missing Hm), Hfs.
Qed.

Lemma C102_unwritable_pf :
  forall (zl : zenv) fuel he sha1 k uuid dumps size can_write n fs stdin c out,
  output_of c = Some out -> file_name out -> can_write out = false ->
  exists ps o, run_command (zl:=zl) fuel he sha1 k uuid dumps size can_write n c fs stdin = (fs, ps, o) /\ status o = 1
    /\ (forall t, ~ In (PText t) ps).
Proof.
intros zl fuel he sha1 k uuid dumps size cw n fs stdin c out E Ho Hw.
assert (Ew : open_write cw (Some out) = WFail) by (unfold open_write; now rewrite (is_default_false out Ho), Hw).
destruct c as [inputs fields output|filename output verbose|filename offset pl hd|inputs verbose]; cbn [output_of run_command] in *; try discriminate.
- subst output. unfold run_index. rewrite Ew. do 2 eexists. split; [reflexivity|]. split; [reflexivity|]. intros t [].
- injection E as ->. unfold run_recompress. rewrite Ew. destruct (open_read fs filename); do 2 eexists; (split; [reflexivity|]); (split; [reflexivity|]); intros t [X|[]]; discriminate.
Qed.

Lemma check_all_cons (zl : zenv) fuel he n verbose uuid : forall files ev f,
  check_all (zl:=zl) fuel he n verbose uuid ev (f :: files)
  = match check_all (zl:=zl) fuel he n verbose uuid ev [f] with
    | (Ok ev', ms) => let (x, ms') := check_all (zl:=zl) fuel he n verbose uuid ev' files in (x, ms ++ ms')
    | (Err e, ms) => (Err e, ms)
    end.
Proof.
  intros files ev [name f]. cbn [check_all]. destruct (check_loop _ _ _ _ _ _ _ _ _) as [[x ev'] ms]. destruct x as [u|e].
  - rewrite app_nil_r. reflexivity.
  - destruct e; try reflexivity. rewrite app_nil_r. destruct (check_all _ _ _ _ _ _ files) as [x ms']. f_equal. now rewrite <- app_assoc.
Qed.
Lemma check_inputs_all (zl : zenv) fuel he n verbose uuid fs : forall l ev rest,
  Forall (fun x => has_file fs (fst x) (snd x)) l ->
  check_inputs (zl:=zl) fuel he uuid n verbose ev fs (map fst l ++ rest)
  = match check_all (zl:=zl) fuel he n verbose uuid ev (map (fun x => (fst x, raw_open (snd x) [])) l) with
    | (Ok ev', ms) => let (ps, o) := check_inputs (zl:=zl) fuel he uuid n verbose ev' fs rest in (map PMsg ms ++ ps, o)
    | (Err e, ms) => (map PMsg ms, Raised e)
    end.
Proof.
  induction l as [|[name data] l IH]; intros ev rest HF.
  - cbn [map app check_all]. now destruct (check_inputs _ _ _ _ _ _ _ rest).
  - inversion HF as [|? ? H1 H2]; subst. cbn [map app fst snd]. rewrite check_all_cons. cbn [check_inputs]. cbn [fst snd] in H1. rewrite (open_has _ _ _ H1).
    destruct (check_all _ _ _ _ _ ev [_]) as [[ev'|e] ms]; [|reflexivity]. rewrite (IH ev' rest H2).
    destruct (check_all _ _ _ _ _ ev' _) as [[v|e] ms']; cbn.
    + destruct (check_inputs _ _ _ _ _ v _ rest). f_equal. rewrite map_app. now rewrite app_assoc.
    + f_equal. now rewrite map_app.
Qed.

Lemma C103_check_pf :
  forall (zl : zenv) fuel he sha1 k uuid dumps size can_write n fs stdin verbose l x ms,
  Forall (fun f => has_file fs (fst f) (snd f)) l ->
  check_all (zl:=zl) fuel he n verbose uuid 0 (map (fun f => (fst f, raw_open (snd f) [])) l) = (x, ms) ->
  exists o, run_command (zl:=zl) fuel he sha1 k uuid dumps size can_write n (CCheck (map fst l) verbose) fs stdin = (fs, map PMsg ms, o)
    /\ status o = match x with Ok v => v | Err _ => 1 end.
Proof.
intros zl fuel he sha1 k uuid dumps size cw n fs stdin verbose l x ms HF E. cbn [run_command].
pose proof (check_inputs_all zl fuel he n verbose uuid fs l 0 [] HF) as C. rewrite app_nil_r in C. rewrite C, E. destruct x as [v|e]; cbn [check_inputs].
- exists (Exited v). rewrite app_nil_r. split; reflexivity.
- exists (Raised e). split; reflexivity.
Qed.

Lemma C103_check_missing_pf :
  forall (zl : zenv) fuel he sha1 k uuid dumps size can_write n fs stdin verbose l missing rest v ms,
  Forall (fun f => has_file fs (fst f) (snd f)) l -> file_name missing -> fs missing = None ->
  check_all (zl:=zl) fuel he n verbose uuid 0 (map (fun f => (fst f, raw_open (snd f) [])) l) = (Ok v, ms) ->
  exists o, run_command (zl:=zl) fuel he sha1 k uuid dumps size can_write n (CCheck (map fst l ++ missing :: rest) verbose) fs stdin = (fs, map PMsg ms, o)
    /\ status o = 1.
Proof.
intros zl fuel he sha1 k uuid dumps size cw n fs stdin verbose l missing rest v ms HF Hm Hfs E. cbn [run_command].
rewrite (check_inputs_all zl fuel he n verbose uuid fs l 0 (missing :: rest) HF), E. cbn [check_inputs].
assert (Eo : open_read fs missing = RMissing) by (unfold open_read; now rewrite (is_default_false missing Hm), Hfs). rewrite Eo. exists OsError. rewrite app_nil_r. split; reflexivity.
Qed.

Lemma C103_check_archives_pf :
  forall (zl : zenv) fuel he sha1 k uuid dumps size can_write n fs stdin verbose M l ess,
  Forall (fun f => has_file fs (fst f) (snd f)) l ->
  archives unchunked zl fuel he (check_opts uuid) M (map (fun f => (fst f, raw_open (snd f) [])) l) ess -> 64 <= M ->
  Forall (fun es => (List.length es < n)%nat) ess ->
  (forall es e pl, In es ess -> In (e, pl) es -> not_vacuous he e /\ plain_content (e_http e)) ->
  exists ps o, run_command (zl:=zl) fuel he sha1 k uuid dumps size can_write n (CCheck (map fst l) verbose) fs stdin = (fs, ps, o)
    /\ ((exists es e pl, In es ess /\ In (e, pl) es /\ fails he e) -> status o = 1)
    /\ ((forall es e pl, In es ess -> In (e, pl) es -> ~ fails he e) -> status o = 0).
Proof.
intros zl fuel he sha1 k uuid dumps size cw n fs stdin verbose M l ess HF HA HM HL HQ.
destruct (C63_archives_partial_pf zl fuel he M n verbose uuid _ ess HA HM HL HQ) as (v & ms & E & V1 & V0).
destruct (C103_check_pf zl fuel he sha1 k uuid dumps size cw n fs stdin verbose l (Ok v) ms HF E) as (o & Eo & So). rewrite <- So in V1, V0. eauto 6.
Qed.

Lemma index_inputs_all (zl : zenv) fuel he n uuid dumps fields fs stdin : forall l,
  Forall (fun x => has_file fs (fst x) (snd x)) l ->
  index_inputs (zl:=zl) fuel he uuid dumps n fields fs stdin (map fst l)
  = match index_all (zl:=zl) fuel he n false uuid fields (map (fun x => (fst x, raw_open (snd x) [])) l) with
    | (ds, EndStop) => (index_text dumps ds, Returned)
    | (ds, EndExn e) => (index_text dumps ds, Raised e)
    end.
Proof.
  induction l as [|[name data] l IH]; intros HF; [reflexivity|]. inversion HF as [|? ? H1 H2]; subst. cbn [map fst snd index_inputs index_all] in *.
  rewrite (open_has _ _ _ H1). destruct (index_file _ _ _ _ _ _ _ _) as [ds [|e]]; [|reflexivity]. rewrite (IH H2).
  destruct (index_all _ _ _ _ _ _ _) as [ds' [|e]]; f_equal; unfold index_text; now rewrite flat_map_app.
Qed.

Lemma C103_index_pf :
  forall (zl : zenv) fuel he sha1 k uuid dumps size can_write n fs stdin l fields ds en,
  l <> [] -> Forall (fun f => has_file fs (fst f) (snd f)) l ->
  index_all (zl:=zl) fuel he n false uuid (split_fields fields) (map (fun f => (fst f, raw_open (snd f) [])) l) = (ds, en) ->
  (exists o, run_command (zl:=zl) fuel he sha1 k uuid dumps size can_write n (CIndex (map fst l) fields None) fs stdin = (fs, [PText (index_text dumps ds)], o)
     /\ status o = match en with EndStop => 0 | EndExn _ => 1 end)
  /\ (forall out, file_name out -> can_write out = true -> ~ In out (map fst l) ->
      exists fs' o, run_command (zl:=zl) fuel he sha1 k uuid dumps size can_write n (CIndex (map fst l) fields (Some out)) fs stdin = (fs', [], o)
        /\ fs' out = Some (index_text dumps ds) /\ status o = match en with EndStop => 0 | EndExn _ => 1 end).
Proof.
intros zl fuel he sha1 k uuid dumps size cw n fs stdin l fields ds en Hne HF E. cbn [run_command]. unfold run_index.
assert (Hnil : is_nil (map fst l) = false) by (destruct l; [contradiction|reflexivity]). rewrite Hnil. split.
- cbn [open_write]. rewrite (index_inputs_all zl fuel he n uuid dumps _ fs stdin l HF), E. destruct en; eexists; (split; [reflexivity|reflexivity]).
- intros out Ho Hw Hin. rewrite (write_has cw out Ho Hw).
  assert (HF' : Forall (fun x => has_file (set_file out [] fs) (fst x) (snd x)) l).
  { rewrite Forall_forall in *. intros x Hx. destruct (HF x Hx) as [H1 H2]. split; [exact H1|]. rewrite set_other; [exact H2|]. intros Hq. apply Hin. rewrite <- Hq. now apply in_map. }
  rewrite (index_inputs_all zl fuel he n uuid dumps _ _ stdin l HF'), E. destruct en; do 2 eexists; (split; [reflexivity|]); split; try apply set_same; reflexivity.
Qed.

Lemma C103_index_extract_pf :
  forall (zl : zenv) fuel he sha1 k uuid dumps size can_write n fs stdin M name data fields es,
  has_file fs name data -> In (lit "offset") (split_fields fields) ->
  good_archive every zl fuel he (extract_opts uuid) M 0 [] data es -> (List.length es < n)%nat ->
  exists ds, run_command (zl:=zl) fuel he sha1 k uuid dumps size can_write n (CIndex [name] fields None) fs stdin
             = (fs, [PText (concat (map (fun d => dumps d ++ [10%N]) ds))], Returned)
    /\ List.length ds = List.length es
    /\ forall i d e pl, nth_error ds i = Some d -> nth_error es i = Some (e, pl) ->
       exists v, In (lit "offset", v) d /\ (forall v', In (lit "offset", v') d -> v' = v)
         /\ forall wb hb, warc_text (e_rec e) wb -> http_text (e_http e) hb ->
            run_command (zl:=zl) fuel he sha1 k uuid dumps size can_write n (CExtract name v false false) fs stdin
            = (fs, [PBytes (wb ++ hb ++ e_payload e)], Returned).
Proof.
intros zl fuel he sha1 k uuid dumps size cw n fs stdin M name data fields es Hf Hoff HG HL.
destruct (C88_index_extract_partial_pf zl fuel he M uuid name (split_fields fields) [] data es n Hoff HG HL) as (ds & E & EL & HX).
exists ds. split; [|split; [exact EL|]].
- cbn [run_command]. unfold run_index. cbn [is_nil open_write index_inputs]. rewrite (open_has _ _ _ Hf), E. rewrite app_nil_r. unfold index_text. now rewrite flat_map_concat_map.
- intros i d e pl Hd He. destruct (HX i d Hd) as (e' & off & len & v & He' & Hin & Huni & Hv & Hx). rewrite He in He'. injection He' as <- ->.
  exists v. split; [exact Hin|]. split; [exact Huni|]. intros wb hb Hwb Hhb. destruct (Hx wb hb Hwb Hhb) as (ws & Ews & Ec).
  cbn [run_command]. unfold run_extract. rewrite (open_has _ _ _ Hf), Hv.
  assert (Hoff0 : 0 <= off). { pose proof (placed_nonneg _ _ _ _ _ _ _ _ _ _ HG (Z.le_refl 0)) as X. rewrite Forall_forall in X. exact (X _ (nth_error_In _ _ He)). }
  replace (off <? 0) with false by lia. rewrite Ews, Ec. reflexivity.
Qed.

Lemma recompress_out_ok (zl : zenv) fuel he sha1 k uuid size n data c fixed out :
  recompress (zl:=zl) fuel he n sha1 k uuid size data = RcOk c fixed out ->
  recompress_out (zl:=zl) fuel he sha1 k uuid size n true data = (Ok (c, fixed), out).
Proof.
  unfold recompress, recompress_out, decompress_and_recompress. destruct (load_and_write _ _ _ _ _ _ (raw_open data [])) as [[c1 ws1] [e|]]; cbn [attempt orb].
  - intros H. destruct e; try discriminate; (destruct (copyfileobj _ _ _ _) as [d|e']; [|discriminate]; destruct (load_and_write _ _ _ _ _ _ _) as [[c2 ws2] [e2|]]; [discriminate|]; cbn [attempt orb]; now injection H as <- <- <-).
  - now intros [= <- <- <-].
Qed.

Lemma C103_recompress_pf :
  forall (zl : zenv) fuel he sha1 k uuid dumps size can_write n fs stdin name data out c fixed b,
  has_file fs name data -> file_name out -> can_write out = true -> out <> name ->
  recompress (zl:=zl) fuel he n sha1 k uuid size data = RcOk c fixed b ->
  exists fs', run_command (zl:=zl) fuel he sha1 k uuid dumps size can_write n (CRecompress name out false) fs stdin
              = (fs', [PCount c out; PFixed fixed], Returned) /\ fs' out = Some b /\ fs' name = Some data.
Proof.
intros zl fuel he sha1 k uuid dumps size cw n fs stdin name data out c fixed b Hf Ho Hw Hne E. cbn [run_command]. unfold run_recompress.
rewrite (open_has _ _ _ Hf), (write_has cw out Ho Hw). cbv zeta.
assert (E1 : open_read (set_file out [] fs) name = RFile data) by (apply open_has; destruct Hf as [H1 H2]; split; [exact H1|]; rewrite set_other by congruence; exact H2).
rewrite E1, (recompress_out_ok _ _ _ _ _ _ _ _ _ _ _ _ E). eexists. split; [reflexivity|]. split; [apply set_same|]. rewrite set_other by congruence. apply Hf.
Qed.

Lemma C103_recompress_verbose_pf :
  forall (zl : zenv) fuel he sha1 k uuid dumps size can_write n fs stdin name data out c fixed b fs' t,
  has_file fs name data -> file_name out -> can_write out = true -> out <> name ->
  recompress (zl:=zl) fuel he n sha1 k uuid size data = RcOk c fixed b -> has_file fs' out b ->
  run_command (zl:=zl) fuel he sha1 k uuid dumps size can_write n (CIndex [out] (lit "offset,warc-type,warc-target-uri") None) fs' stdin = (fs', [PText t], Returned) ->
  exists fs'', run_command (zl:=zl) fuel he sha1 k uuid dumps size can_write n (CRecompress name out true) fs stdin
              = (fs'', [PText t; PCount c out; PFixed fixed], Returned) /\ fs'' out = Some b.
Proof.
intros zl fuel he sha1 k uuid dumps size cw n fs stdin name data out c fixed b fs' t Hf Ho Hw Hne E Hf' EI. cbn [run_command] in *. unfold run_recompress.
rewrite (open_has _ _ _ Hf), (write_has cw out Ho Hw). cbv zeta.
assert (E1 : open_read (set_file out [] fs) name = RFile data) by (apply open_has; destruct Hf as [H1 H2]; split; [exact H1|]; rewrite set_other by congruence; exact H2).
rewrite E1, (recompress_out_ok _ _ _ _ _ _ _ _ _ _ _ _ E).
assert (EI' : run_index (zl:=zl) fuel he uuid dumps cw n [out] DEFAULT_FIELDS None (set_file out b fs) stdin = (set_file out b fs, [PText t], Returned)).
{ fold DEFAULT_FIELDS in EI. unfold run_index in *. cbn [is_nil open_write index_inputs] in *. rewrite (open_has _ _ _ Hf') in EI.
  assert (E2 : open_read (set_file out b fs) out = RFile b) by (apply open_has; split; [exact Ho|apply set_same]). rewrite E2.
  destruct (index_file _ _ _ _ _ _ _ _) as [ds [|e]]; injection EI as E3; rewrite E3; [reflexivity|discriminate]. }
rewrite EI'. eexists. split; [reflexivity|apply set_same].
Qed.

Lemma recompress_out_failed (zl : zenv) fuel he sha1 k uuid size n data e :
  recompress (zl:=zl) fuel he n sha1 k uuid size data = RcFailed e ->
  exists b, recompress_out (zl:=zl) fuel he sha1 k uuid size n true data = (Err e, b).
Proof.
  unfold recompress, recompress_out, decompress_and_recompress. destruct (load_and_write _ _ _ _ _ _ (raw_open data [])) as [[c1 ws1] [e1|]]; cbn [attempt orb]; [|discriminate].
  intros H. destruct e1; try (injection H as <-; eexists; reflexivity);
    (destruct (copyfileobj _ _ _ _) as [d|e']; [|injection H as <-; eexists; reflexivity]; destruct (load_and_write _ _ _ _ _ _ _) as [[c2 ws2] [e2|]]; [|discriminate]; cbn [attempt orb]; injection H as <-; eexists; reflexivity).
Qed.

Lemma C103_recompress_failed_pf :
  forall (zl : zenv) fuel he sha1 k uuid dumps size can_write n fs stdin name data out verbose e,
  has_file fs name data -> file_name out -> can_write out = true -> out <> name ->
  recompress (zl:=zl) fuel he n sha1 k uuid size data = RcFailed e -> e <> OutOfFuel ->
  exists fs', run_command (zl:=zl) fuel he sha1 k uuid dumps size can_write n (CRecompress name out verbose) fs stdin
              = (fs', [PFailed name], Exited 1) /\ fs' name = Some data.
Proof.
intros zl fuel he sha1 k uuid dumps size cw n fs stdin name data out verbose e Hf Ho Hw Hne E He. cbn [run_command]. unfold run_recompress.
rewrite (open_has _ _ _ Hf), (write_has cw out Ho Hw). cbv zeta.
assert (E1 : open_read (set_file out [] fs) name = RFile data) by (apply open_has; destruct Hf as [H1 H2]; split; [exact H1|]; rewrite set_other by congruence; exact H2).
destruct (recompress_out_failed _ _ _ _ _ _ _ _ _ _ E) as [b Eb]. rewrite E1, Eb.
exists (set_file out b fs). split; [|rewrite set_other by congruence; apply Hf]. destruct e; try reflexivity. contradiction.
Qed.

Lemma C103_recompress_check_pf :
  forall (zl : zenv) fuel he k sha1 uuid dumps size can_write n fs stdin M name data out es,
  has_file fs name data -> file_name out -> can_write out = true -> out <> name ->
  gzip_codec zl k -> henv_ok he -> he (lit "sha1") = Some sha1 -> 64 <= M ->
  good_archive unchunked zl fuel he (check_opts uuid) M 0 [] data es ->
  Forall (fun x => rewritable fuel M false (fst x)) es ->
  Forall (fun x => digest_stable (fst x) /\ judge_ok he (fst x)) es -> es <> [] -> (List.length es < n)%nat ->
  exists fs' es' ms, run_command (zl:=zl) fuel he sha1 k uuid dumps size can_write n (CRecompress name out false) fs stdin
      = (fs', [PCount (List.length es) out; PFixed false], Returned)
    /\ fs' out = Some (concat ms) /\ fs' name = Some data /\ compressed zl es' ms
    /\ (back_fits zl fuel es' ms -> Forall2 (fun e m => unchunked e \/ lenZ m <= BUFF_SIZE) es' ms ->
        let run f := run_command (zl:=zl) fuel he sha1 k uuid dumps size can_write n (CCheck [f] false) fs' stdin in
        snd (run name) <> Raised OutOfFuel -> snd (run out) <> Raised OutOfFuel ->
        status (snd (run name)) = status (snd (run out))
        /\ ((exists e, In e es /\ fails he (fst e)) -> status (snd (run name)) = 1)
        /\ ((forall e, In e es -> ~ fails he (fst e)) -> status (snd (run name)) = 0)).
Proof.
intros zl fuel he k sha1 uuid dumps size cw n fs stdin M name data out es Hf Ho Hw Hne Hgz Hhe Hsha HM HG HR HD Hes HL.
destruct (C89_recompress_check_partial_pf zl fuel he k sha1 uuid M data es n size Hgz Hhe Hsha HM HG HR HD Hes HL) as (es' & ms & E & HC & HK).
destruct (C103_recompress_pf zl fuel he sha1 k uuid dumps size cw n fs stdin name data out _ _ _ Hf Ho Hw Hne E) as (fs' & Er & F1 & F2).
exists fs', es', ms. split; [exact Er|]. split; [exact F1|]. split; [exact F2|]. split; [exact HC|]. intros HB HU run N1 N2.
assert (S1 : has_file fs' name data) by (split; [apply Hf|exact F2]). assert (S2 : has_file fs' out (concat ms)) by (split; [exact Ho|exact F1]).
assert (R : forall f d, has_file fs' f d -> run f = match check_all (zl:=zl) fuel he n false uuid 0 [(f, raw_open d [])] with
   | (Ok v, ms) => (fs', map PMsg ms ++ [], Exited v) | (Err e, ms) => (fs', map PMsg ms, Raised e) end).
{ intros f d Hfd. unfold run. cbn [run_command check_inputs]. rewrite (open_has _ _ _ Hfd). destruct (check_all _ _ _ _ _ _ _) as [[v|e] m]; reflexivity. }
rewrite (R name data S1), (R out _ S2) in *.
destruct (check_all (zl:=zl) fuel he n false uuid 0 [(name, raw_open data [])]) as [x1 m1] eqn:C1.
destruct (check_all (zl:=zl) fuel he n false uuid 0 [(out, raw_open (concat ms) [])]) as [x2 m2] eqn:C2.
destruct (HK HB HU name out false false x1 m1 x2 m2 C1) as (v & -> & -> & V1 & V0); [intros ->; now apply N1|exact C2|intros ->; now apply N2|].
cbn [snd status]. auto.
Qed.

Lemma C104_dash_refuted_pf :
  forall (zl : zenv) fuel he sha1 k uuid dumps size can_write n fs stdin verbose offset payload headers out,
  run_command (zl:=zl) fuel he sha1 k uuid dumps size can_write n (CCheck [lit "-"] verbose) fs stdin = (fs, [], Raised AttributeErr)
  /\ run_command (zl:=zl) fuel he sha1 k uuid dumps size can_write n (CExtract (lit "-") offset payload headers) fs stdin = (fs, [], Raised AttributeErr)
  /\ exists fs', run_command (zl:=zl) fuel he sha1 k uuid dumps size can_write n (CRecompress (lit "-") out verbose) fs stdin = (fs', [PFailed (lit "-")], Exited 1).
Proof.
intros zl fuel he sha1 k uuid dumps size cw n fs stdin verbose offset pl hd out. split; [reflexivity|]. split; [reflexivity|].
cbn [run_command]. unfold run_recompress. change (open_read fs (lit "-")) with RDefault. cbv iota.
destruct (open_write cw (Some out)) as [|x|]; cbv zeta; try change (open_read _ (lit "-")) with RDefault; cbv iota; eexists; reflexivity.
Qed.

Lemma get_field_name (zl : zenv) fuel f1 f2 name it : name <> lit "filename" -> get_field (zl:=zl) fuel f1 name it = get_field (zl:=zl) fuel f2 name it.
Proof. intros H. unfold get_field. now rewrite (leqb_false name (lit "filename") H). Qed.
Lemma index_fields_name (zl : zenv) fuel f1 f2 : forall fields d it, ~ In (lit "filename") fields ->
  index_fields (zl:=zl) fuel f1 fields d it = index_fields (zl:=zl) fuel f2 fields d it.
Proof.
  induction fields as [|f t IH]; intros d it H; [reflexivity|]. cbn [index_fields]. rewrite (get_field_name zl fuel f1 f2) by (intros ->; apply H; now left).
  destruct (get_field _ f2 f it) as [[[v|]|e] it']; try reflexivity; apply IH; intros X; apply H; now right.
Qed.
Lemma index_loop_name (zl : zenv) fuel he o f1 f2 fields : ~ In (lit "filename") fields -> forall n it,
  index_loop (zl:=zl) fuel he n o f1 fields it = index_loop (zl:=zl) fuel he n o f2 fields it.
Proof.
  intros H. induction n as [|n IH]; intros it; [reflexivity|]. cbn [index_loop]. destruct (iter_next _ _ _ _) as [[[rc|]|e] it']; try reflexivity.
  rewrite (index_fields_name zl fuel f1 f2 fields [] it' H). destruct (index_fields _ f2 fields [] it') as [[d|e] it'']; [|reflexivity]. now rewrite IH.
Qed.

Lemma C104_index_partial_pf :
  forall (zl : zenv) fuel he sha1 k uuid dumps size can_write n fs stdin name fields,
  has_file fs name stdin -> ~ In (lit "filename") (split_fields fields) ->
  let run inputs := run_command (zl:=zl) fuel he sha1 k uuid dumps size can_write n (CIndex inputs fields None) fs stdin in
  run [] = run [name] /\ run [lit "-"] = run [name].
Proof.
intros zl fuel he sha1 k uuid dumps size cw n fs stdin name fields Hf Hn run.
assert (E : run [lit "-"] = run [name]).
{ unfold run. cbn [run_command]. unfold run_index. cbn [is_nil open_write index_inputs]. change (open_read fs (lit "-")) with RDefault. rewrite (open_has _ _ _ Hf).
  unfold index_file. now rewrite (index_loop_name zl fuel he _ (lit "-") name _ Hn). }
split; [|exact E]. rewrite <- E. reflexivity.
Qed.
