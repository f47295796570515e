(** * C36: splitting the output over several files loses nothing

    [splits] says how the items of a session are spread over files: in order, from file number 0 on,
    with different names, a new file only when the previous one exceeds the limit, and no other file
    touched. *)

From Verif Require Import Bytes StrMap SioModel SioSpec Ieee ObjModel ObjSpec EventModel EventSpec EventFacts EventExamples IndexModel IndexExamples FileModel FileSpec FileExamples
  BitModel BitSpec SplitModel SplitSpec SplitProofs.

(** Opening, any calls that write, set the compression level or flush, and closing.  The split writer is
    new ([sp_last] is 4294967295) or has finished a session with more than one file. *)
Theorem C36_nothing_lost : forall comp uncomp b1 b2 base s ops, codec_ok comp uncomp -> usable b1 -> usable b2 ->
  idle s -> sp_last s <> 0 -> base <> [] -> Zlen base + 6 < two32 -> Forall inner ops ->
  group_ok comp b1 b2 (written (sp_level s) ops) -> free (sp_disk s) base (str ".slcio") (Zlen (written (sp_level s) ops)) ->
  exists s' names groups, sp_run comp b1 b2 s (SOpen (base ++ str ".slcio") :: ops ++ [SClose]) = Ok (repeat Done (length ops + 2), s') /\
    splits comp uncomp b1 b2 base (str ".slcio") (sp_max s) (written (sp_level s) ops) (sp_disk s) (sp_disk s') names groups /\
    idle s' /\ sp_max s' = sp_max s /\ sp_last s' = Zlen groups - 1.
Proof. intros comp uncomp b1 b2 base s ops HC U1 U2 HI HL. exact (split_session comp uncomp b1 b2 HC U1 U2 base (sp_max s) (sp_disk s) s ops HI eq_refl HL eq_refl). Qed.
Print Assumptions C36_nothing_lost.

(** reading the files in this order gives the items in their order *)
Theorem C36_read_back : forall comp uncomp b1 b2 srt ignore_null base max its d d' names groups ops tags raw cbuf mraw next,
  codec_ok comp uncomp -> usable b1 -> usable b2 -> group_ok comp b1 b2 its -> its <> [] -> 0 <= max ->
  splits comp uncomp b1 b2 base (str ".slcio") max its d d' names groups ->
  Forall (fun zi => readable ignore_null tags (snd zi)) its -> 0 < next ->
  map snd (labelled names groups) = map snd its /\
  trace srt tags at_null next (labelled names groups) ops
    (read_all uncomp srt ignore_null d' names ops (new_reader false false tags raw cbuf mraw next)).
Proof. intros comp uncomp b1 b2 srt ignore_null base max its d d' names groups ops tags raw cbuf mraw next HC U1 U2. exact (read_split comp uncomp b1 b2 HC U1 U2 srt ignore_null base max its d d' names groups ops tags raw cbuf mraw next). Qed.
Print Assumptions C36_read_back.

(** different numbers have different names *)
Theorem C36_names : forall base ext j k n, file_number base ext j n -> file_number base ext k n -> j = k.
Proof. exact file_number_inj. Qed.
Print Assumptions C36_names.

(** No call changes a file that exists and is not the one being written: any program, from any state,
    also if it goes on after exceptions. *)
Theorem C36_no_overwriting : forall comp b1 b2 l s as' s' n c, sp_disk s n = Some c -> (forall o, sp_out s <> Some (n, o)) ->
  sp_run comp b1 b2 s l = Ok (as', s') -> sp_disk s' n = Some c.
Proof. intros comp b1 b2 l s as' s' n c H1 H2 H. exact (proj1 (keep_run comp b1 b2 n c l s as' s' (conj H1 H2) H)). Qed.
Print Assumptions C36_no_overwriting.

(** With other extensions, which are accepted as well, everything goes into one file, whatever the
    limit: the size that is looked at is not that of the file, whose name ends in .slcio. *)
Theorem C36_other_extension : forall comp uncomp b1 b2 base c s ops, codec_ok comp uncomp -> usable b1 -> usable b2 ->
  c <> Init.Byte.x73 -> c <> Init.Byte.x2e -> idle s -> sp_last s <> 0 -> -1 <= sp_max s -> base <> [] -> Zlen base + 6 < two32 -> Forall inner ops ->
  let ext := str "." ++ [c] ++ str "lcio" in
  let n := base ++ str ".000" ++ ext in
  group_ok comp b1 b2 (written (sp_level s) ops) -> sp_disk s n = None -> sp_disk s (n ++ str ".slcio") = None ->
  exists s', sp_run comp b1 b2 s (SOpen (base ++ ext) :: ops ++ [SClose]) = Ok (repeat Done (length ops + 2), s') /\
    holds_items comp uncomp b1 b2 (sp_disk s') (n ++ str ".slcio") (written (sp_level s) ops) /\
    forall m, m <> n ++ str ".slcio" -> sp_disk s' m = sp_disk s m.
Proof. intros comp uncomp b1 b2 base c s ops HC U1 U2. exact (other_session comp uncomp b1 b2 HC U1 U2 base c s ops). Qed.
Print Assumptions C36_other_extension.

(** ** Examples *)

Definition ex_items : list (Z * witem) := ss_items ex_sess1 ++ ss_items ex_sess2.
Definition ex_ops : list sop := SFlush :: flat_map (fun zi => [SLevel (fst zi); SWrite (snd zi)]) ex_items.
Definition ex_split (max : Z) : split := new_split empty_disk ex_buf 0 max.
Definition ex_prog (l : list sop) (s : split) : list answer * split :=
  match sp_run ex_comp ex_buf ex_buf s l with Ok x => x | _ => ([], s) end.
(** the sizes of files *)
Definition sizes (d : disk) (l : list bytes) : list Z := map (fun n => match d n with Some c => Zlen c | None => -1 end) l.
Definition ex_names : list bytes := [str "a.000.slcio"; str "a.001.slcio"; str "a.002.slcio"; str "a.003.slcio"].
Definition ex_after (max : Z) : disk := sp_disk (snd (ex_prog (SOpen (str "a.slcio") :: ex_ops ++ [SClose]) (ex_split max))).

Lemma ex_group : group_ok ex_comp ex_buf ex_buf (written 0 ex_ops).
Proof.
  change (written 0 ex_ops) with ex_items. split; [apply Forall_app; split; apply ex_items_ok|]. split.
  - apply ex_close. intros k Hk. cbn in Hk. repeat match goal with H : _ \/ _ |- _ => destruct H as [<-|H] | H : False |- _ => destruct H end; cbn [fst]; lia.
  - split; vm_compute; reflexivity.
Qed.
Example C36_case : group_ok ex_comp ex_buf ex_buf (written 0 ex_ops) /\ written 0 ex_ops = ex_items /\ idle (ex_split 1000) /\ Forall inner ex_ops /\
  free empty_disk (str "a") (str ".slcio") (Zlen ex_items) /\ Forall (fun zi => readable false [] (snd zi)) ex_items.
Proof.
  split; [exact ex_group|]. split; [reflexivity|]. split; [split; [reflexivity|]; exists ex_buf; split; [exact ex_usable|reflexivity]|].
  split; [repeat constructor|]. split; [intros k n _ _; reflexivity|].
  pose proof ex_readable as R. change (items_of (wf_sess ex_file)) with (map snd ex_items) in R. apply Forall_forall. intros x Hx. rewrite Forall_forall in R. apply R. apply in_map. exact Hx.
Qed.
(** the limit decides how many files there are *)
Example C36_limits : sizes (ex_after 100000) ex_names = [4040; -1; -1; -1] /\ sizes (ex_after 1000) ex_names = [1648; 1432; 1652; -1] /\
  sizes (ex_after 0) ex_names = [564; 1440; 1432; 568] /\ map (fun zi => Zlen (item_text ex_comp ex_buf ex_buf zi)) ex_items = [200; 1076; 1068; 204; 1076] /\
  ex_use_all (ex_after 1000) (firstn 3 ex_names) false [Next false; Next true; Next true; Next false; Next true; Next true] =
    [SRun 42; SEvt 42 7; SEvt 42 3; SRun 43; SEvt 43 7; SNull].
Proof. vm_compute. repeat split; reflexivity. Qed.
Example C36_other_case : let s := snd (ex_prog (SOpen (str "a.xlcio") :: ex_ops ++ [SClose]) (ex_split 0)) in
  sizes (sp_disk s) [str "a.000.xlcio"; str "a.000.xlcio.slcio"; str "a.001.xlcio.slcio"] = [-1; 4040; -1].
Proof. vm_compute. reflexivity. Qed.
Example C36_overwriting_case : let s := ex_split 1000 in let d := save empty_disk (str "a.001.slcio") (str "old") in
  let s := mkSp d None (sp_mgr s) 0 1000 [] [] [] 0 4294967295 in
  let '(a, s') := ex_prog (SOpen (str "a.slcio") :: ex_ops) s in nth_error a 5 = Some Done /\ nth_error a 7 = Some (Threw LIOException) /\ sp_disk s' (str "a.001.slcio") = Some (str "old").
Proof. vm_compute. repeat split; reflexivity. Qed.

(** ** Where the writer goes wrong *)

(** After a session with one file the next one cannot be opened: the old name is used, whose file exists. *)
Theorem C36_second_session_refuted : exists s ops1 ops2 s', group_ok ex_comp ex_buf ex_buf (written 0 ops1 ++ written 0 ops2) /\
  free (sp_disk s) (str "b") (str ".slcio") 100 /\ idle s /\ sp_last s <> 0 /\
  sp_run ex_comp ex_buf ex_buf s (SOpen (str "a.slcio") :: ops1 ++ [SClose; SOpen (str "b.slcio")]) = Ok ([Done; Done; Done; Threw LIOException], s') /\
  sp_disk s' (str "b.000.slcio") = None.
Proof.
  exists (ex_split 1000), [SWrite (ex_small 5 1)], [], (snd (ex_prog [SOpen (str "a.slcio"); SWrite (ex_small 5 1); SClose; SOpen (str "b.slcio")] (ex_split 1000))).
  split; [|split; [intros k n _ _; reflexivity|split; [split; [reflexivity|]; exists ex_buf; split; [exact ex_usable|reflexivity]|split; [discriminate|split]]]].
  - split; [apply Forall_cons; [apply ex_small_ok; auto|apply Forall_nil]|]. split; [|split; vm_compute; reflexivity].
    apply ex_close. intros k Hk. cbn in Hk. destruct Hk as [<-|[]]. cbn [fst]. lia.
  - unfold ex_prog. destruct (sp_run ex_comp ex_buf ex_buf (ex_split 1000) [SOpen (str "a.slcio"); SWrite (ex_small 5 1); SClose; SOpen (str "b.slcio")]) as [[a s]| |] eqn:E;
      cbn [app]; rewrite E; [|vm_compute in E; discriminate E|vm_compute in E; discriminate E].
    cbn [snd]. f_equal. f_equal. apply (f_equal (fun r => match r with Ok x => fst x | _ => [] end)) in E. vm_compute in E. symmetry. exact E.
  - vm_compute. reflexivity.
Qed.

(** If a write comes before open, it throws, and the session afterwards goes to a file with another
    name. *)
Theorem C36_early_write_refuted : exists s ops s', idle s /\ sp_last s <> 0 /\ free (sp_disk s) (str "a") (str ".slcio") 100 /\ Forall inner ops /\
  group_ok ex_comp ex_buf ex_buf (written 0 ops) /\
  ex_prog (SWrite (ex_small 5 1) :: SOpen (str "a.slcio") :: ops ++ [SClose]) s = ([Threw LIOException; Done; Done; Done], s') /\
  sizes (sp_disk s') [str "a.000.slcio"; str ".000.slcio"] = [-1; 504].
Proof.
  exists (ex_split 1000), [SWrite (ex_small 5 1)], (snd (ex_prog [SWrite (ex_small 5 1); SOpen (str "a.slcio"); SWrite (ex_small 5 1); SClose] (ex_split 1000))).
  split; [split; [reflexivity|]; exists ex_buf; split; [exact ex_usable|reflexivity]|]. split; [discriminate|]. split; [intros k n _ _; reflexivity|].
  split; [repeat constructor|]. split; [|split].
  - split; [apply Forall_cons; [apply ex_small_ok; auto|apply Forall_nil]|]. split; [|split; vm_compute; reflexivity].
    apply ex_close. intros k Hk. cbn in Hk. destruct Hk as [<-|[]]. cbn [fst]. lia.
  - cbn [app]. destruct (ex_prog [SWrite (ex_small 5 1); SOpen (str "a.slcio"); SWrite (ex_small 5 1); SClose] (ex_split 1000)) as [a s] eqn:E.
    cbn [snd]. f_equal. apply (f_equal fst) in E. vm_compute in E. symmetry. exact E.
  - vm_compute. reflexivity.
Qed.
