(** * Writing from several threads: the invariant *)

From Coq Require Import Permutation.
From Verif Require Import Bytes StrMap ListFacts SioModel SioSpec SioProofs SioRecord SioFrame Ieee ObjModel ObjSpec EventModel EventSpec EventProofs EventFacts IndexModel IndexSpec
  FileModel FileSpec FileFrame FileWrite IndexFile FileSessions SplitSpec SplitProofs ThreadModel ThreadSpec ThreadProofs.

Section Inv.
Context (comp : Z -> bytes -> bytes) (uncomp : bytes -> option bytes) (b1 b2 raw : buffer).
Context (HC : codec_all comp uncomp) (U1 : usable b1) (U2 : usable b2) (Ur : usable raw).
Context (level : Z) (progs : list (list top)) (HP : programs_ok progs).
Notation C := (labelled_comp comp).
Notation w0 := (mkWr (mkO [] 0) (new_mgr raw) 0).
Notation zs := (levels level progs).
Notation raws_ok := (raws_ok comp b1 b2).
Notation records := (records comp b1 b2).

(** ** What is in the file *)

Definition items (log : list entry) : list (Z * witem) := map snd log.
Definition wrote (log : list entry) (w : writer) : Prop := write_items C w0 b1 b2 (items log) = Ok w.
Definition opened (log : list entry) (sh : shared) : Prop :=
  exists w, wrote log w /\ sh_out sh = Some (wr_o w) /\ sh_mgr sh = Some (wr_mgr w).
Definition closing (log : list entry) (o : ofs) : Prop := exists w g, wrote log w /\ write_access (wr_mgr w) (wr_o w) = Ok (g, o).
Definition closed (log : list entry) (sh : shared) : Prop :=
  sh_out sh = None /\ sh_mgr sh = None /\ exists o, closing log o /\ sh_file sh = o_data o.
Definition rest (log : list entry) (sh : shared) (c : nat) : Prop := (opened log sh /\ (c <= 1)%nat) \/ (closed log sh /\ c = 0%nat).

(** ** Where a thread is *)

Definition critical (p : pc) : bool :=
  match p with PStart | PBuf _ _ | PTest _ _ _ | PComp _ _ _ | PLock _ _ _ => false | _ => true end.
Definition size_ok (n : Z) : Prop := 0 < n < two32.
Definition ready (i : witem) (key : runevt) (recs : list bytes) (size : Z) : Prop :=
  key = item_key i /\ size_ok size /\ (length recs <= 2)%nat /\ exists n, label_ok zs n /\ records n i recs.
(** outside of the locked scopes *)
Definition local_ok (th : thread) : Prop :=
  match th_pc th, th_todo th with
  | PStart, _ => True
  | PBuf i n, TWrite j :: _ => i = j /\ 0 < n
  | PTest i key raws, TWrite j :: _ => i = j /\ raws_ok i key raws
  | PComp i key raws, TWrite j :: _ => i = j /\ raws_ok i key raws
  | PLock key recs size, TWrite i :: _ => ready i key recs size
  | p, _ => critical p = true
  end.
(** inside *)
Definition phase (log : list entry) (sh : shared) (c : nat) (th : thread) : Prop :=
  match th_pc th, th_todo th with
  | PCheck key recs size, TWrite i :: _ => ready i key recs size /\ rest log sh c
  | PPut key st recs2 size, TWrite i :: _ => exists recs1 w, ready i key (recs1 ++ recs2) size /\ wrote log w /\
      sh_out sh = Some (fold_left o_write recs1 (wr_o w)) /\ sh_mgr sh = Some (wr_mgr w) /\
      st = match recs1 with [] => None | _ => Some (o_pos (wr_o w)) end /\ (c <= 1)%nat
  | PAdd key st size, TWrite i :: _ => exists recs w, ready i key recs size /\ wrote log w /\
      sh_out sh = Some (fold_left o_write recs (wr_o w)) /\ sh_mgr sh = Some (wr_mgr w) /\ st = o_pos (wr_o w) /\ (c <= 1)%nat
  | PMax size, TWrite i :: _ => size_ok size /\ opened log sh /\ (c <= 1)%nat
  | PUnlock TDone, TWrite i :: _ => opened log sh /\ (c <= 1)%nat
  | PUnlock (TThrew e), TWrite i :: _ => e = LIOException /\ closed log sh /\ c = 0%nat
  | PClose, TClose :: _ => opened log sh /\ (c <= 1)%nat
  | PReset, TClose :: _ => (exists o, closing log o /\ sh_out sh = Some o) /\ (exists g, sh_mgr sh = Some g) /\ (c <= 1)%nat
  | PShut, TClose :: _ => (exists o, closing log o /\ sh_out sh = Some o) /\ sh_mgr sh = None /\ (c <= 1)%nat
  | PUnlock TDone, TClose :: _ => closed log sh /\ (c <= 1)%nat
  | _, _ => False
  end.
(** the items of a thread that are in the file and the index *)
Definition pending (th : thread) : list witem :=
  match th_pc th, th_todo th with
  | PMax _, TWrite i :: _ => [i]
  | PUnlock TDone, TWrite i :: _ => [i]
  | _, _ => []
  end.
Definition committed (th : thread) : list witem := written_by th ++ pending th.
Definition answers_ok (sh : shared) (th : thread) : Prop :=
  forall o a, In (o, a) (th_done th) -> a = TDone \/ (sh_out sh = None /\ a = TThrew LIOException /\ exists i, o = TWrite i).
Definition tcloses (th : thread) : nat := closes (th_todo th).
Definition all_closes (ths : list thread) : nat := sum_of tcloses ths.

Definition thread_inv (log : list entry) (sh : shared) (t : nat) (p : list top) (th : thread) : Prop :=
  map fst (th_done th) ++ th_todo th = p /\ of_thread t log = committed th /\ local_ok th /\ answers_ok sh th /\
  (critical (th_pc th) = true -> sh_lock sh = Some t).
Record inv (log : list entry) (sh : shared) (ths : list thread) : Prop := mkInv {
  i_len : length ths = length progs;
  i_tids : Forall (fun x => (fst x < length progs)%nat) log;
  i_labels : Forall (fun x => label_ok zs (fst (snd x))) log;
  i_th : forall t p th, nth_error progs t = Some p -> nth_error ths t = Some th -> thread_inv log sh t p th;
  i_held : forall t, sh_lock sh = Some t -> exists th, nth_error ths t = Some th /\ critical (th_pc th) = true /\ phase log sh (all_closes ths) th;
  i_free : sh_lock sh = None -> rest log sh (all_closes ths);
  i_max : size_ok (sh_max sh);
  i_level : In (sh_level sh) zs }.

(** ** The items of the log *)

Lemma in_program t p i : nth_error progs t = Some p -> In (TWrite i) p -> In i (flat_map writes progs).
Proof.
  intros Hp Hi. apply in_flat_map. exists p. split; [eapply nth_error_In; exact Hp|]. apply in_flat_map. exists (TWrite i). split; [exact Hi|left; reflexivity].
Qed.
Lemma committed_sub p th : map fst (th_done th) ++ th_todo th = p -> exists l, Permutation (writes p) (committed th ++ l).
Proof.
  intros <-. unfold writes. rewrite flat_map_app. unfold committed. assert (H1 : exists l, Permutation (flat_map (fun o => match o with TWrite i => [i] | _ => [] end) (map fst (th_done th))) (written_by th ++ l)).
  { unfold written_by. induction (th_done th) as [|[o a] l (m & IH)]; [exists []; constructor|]. cbn [map flat_map fst].
    destruct o as [i|z|]; [|exists m; exact IH|exists m; exact IH]. destruct a as [|e]; [exists m; cbn [app]; constructor; exact IH|].
    exists (i :: m). cbn [app]. apply Permutation_cons_app. exact IH. }
  destruct H1 as (l & H1).
  assert (H2 : exists l, Permutation (flat_map (fun o => match o with TWrite i => [i] | _ => [] end) (th_todo th)) (pending th ++ l)).
  { unfold pending. destruct (th_pc th) as [| | | | | | | | n|a| | |]; try (eexists; cbn [app]; apply Permutation_refl); [|destruct a as [|e]; [|eexists; cbn [app]; apply Permutation_refl]];
      destruct (th_todo th) as [|[j|z|] m]; eexists; cbn [flat_map app]; apply Permutation_refl. }
  destruct H2 as (m & H2). exists (l ++ m). rewrite H1, H2. rewrite <- !app_assoc. apply Permutation_app_head. rewrite !app_assoc. apply Permutation_app_tail. apply Permutation_app_comm.
Qed.

Lemma concat_sub (ps : list (list top)) : forall ths, length ths = length ps ->
  (forall t p th, nth_error ps t = Some p -> nth_error ths t = Some th -> exists l, Permutation (writes p) (committed th ++ l)) ->
  exists l, Permutation (flat_map writes ps) (concat (map committed ths) ++ l).
Proof.
  induction ps as [|p ps IH]; intros [|th ths] Hl H; try discriminate Hl; [exists []; constructor|].
  destruct (IH ths) as (l & IHl). { injection Hl as Hl. exact Hl. } { intros t q u Hq Hu. exact (H (S t) q u Hq Hu). }
  destruct (H 0%nat p th eq_refl eq_refl) as (m & Hm). exists (m ++ l). cbn [flat_map map concat]. rewrite Hm, IHl, <- !app_assoc. apply Permutation_app_head.
  rewrite !app_assoc. apply Permutation_app_tail. apply Permutation_app_comm.
Qed.
Lemma log_items log sh ths : inv log sh ths -> exists l, Permutation (flat_map writes progs) (map (fun x => snd (snd x)) log ++ l).
Proof.
  intros I. destruct (concat_sub progs ths (i_len _ _ _ I)) as (l & H).
  { intros t p th Hp Ht. destruct (i_th _ _ _ I t p th Hp Ht) as (E & _). exact (committed_sub p th E). }
  exists l. rewrite H. apply Permutation_app_tail. symmetry. apply log_perm.
  - rewrite map_length, (i_len _ _ _ I). exact (i_tids _ _ _ I).
  - intros t c Hc. rewrite nth_error_map in Hc. destruct (nth_error ths t) as [th|] eqn:Et; [|discriminate]. injection Hc as <-.
    destruct (nth_error progs t) as [p|] eqn:Ep; [destruct (i_th _ _ _ I t p th Ep Et) as (_ & E & _); exact E|].
    apply nth_error_None in Ep. assert (t < length ths)%nat by (apply nth_error_Some; congruence). rewrite (i_len _ _ _ I) in *. lia.
Qed.

Lemma text_bound z i : item_ok (z, i) -> Zlen (item_text C b1 b2 (z, i)) <= 2 ^ 33.
Proof.
  intros H. destruct (item_spec C uncomp z i b1 b2 (codec_labelled _ _ HC) U1 U2 H) as (recs & s & i' & E & F & _ & R).
  rewrite (item_text_recs C z i b1 b2 recs _ _ E).
  assert (Hf : forall x, f_ok x -> Zlen (f_bytes x) < two32).
  { intros x (_ & Hd & _ & _ & Hx). rewrite f_bytes_len. unfold f_size, f_pad. pose proof (rec_pad_range (f_opts x) (f_dlen x) Hd). lia. }
  destruct s as [h|hd ed].
  - destruct R as (x & d & -> & _). inversion F as [|a b Hx _]; subst. cbn [ftext flat_map]. rewrite app_nil_r. specialize (Hf x Hx). unfold two32 in Hf. lia.
  - destruct R as (x & y & -> & _). inversion F as [|a b Hx F']; subst. inversion F' as [|a b Hy _]; subst. cbn [ftext flat_map]. rewrite app_nil_r, Zlen_app.
    pose proof (Hf x Hx). pose proof (Hf y Hy). unfold two32 in *. lia.
Qed.
Lemma texts_bound l : Forall item_ok l -> Zlen (flat_map (item_text C b1 b2) l) <= Zlen l * 2 ^ 33.
Proof.
  induction 1 as [|[z i] l H F IH]; [reflexivity|]. cbn [flat_map]. rewrite Zlen_app, Zlen_cons. pose proof (text_bound z i H). lia.
Qed.

Lemma group_log log sh ths : inv log sh ths -> group_ok C b1 b2 (items log).
Proof.
  intros I. destruct (log_items _ _ _ I) as (l & Hp). destruct HP as (H1 & H2 & H3 & _).
  assert (Hin : forall x, In x log -> In (snd (snd x)) (flat_map writes progs)).
  { intros x Hx. eapply Permutation_in; [symmetry; exact Hp|]. apply in_or_app. left. apply in_map_iff. exists x. split; [reflexivity|exact Hx]. }
  assert (F : Forall item_ok (items log)).
  { apply Forall_forall. intros zi Hzi. unfold items in Hzi. apply in_map_iff in Hzi. destruct Hzi as ((t & z & i) & <- & Hx). cbn [snd]. apply item_ok_any.
    rewrite Forall_forall in H1. exact (H1 _ (Hin _ Hx)). }
  assert (L : Zlen (items log) < 2 ^ 27).
  { apply Permutation_length in Hp. rewrite app_length, map_length in Hp. unfold items, Zlen in *. rewrite map_length. lia. }
  split; [exact F|]. split.
  - intros a b Ha Hb. apply in_map_iff in Ha, Hb. destruct Ha as (x & <- & Hx), Hb as (y & <- & Hy). unfold items in *.
    apply in_map_iff in Hx, Hy. destruct Hx as (x' & <- & Hx), Hy as (y' & <- & Hy). apply H2; apply in_map; apply Hin; assumption.
  - split; [exact L|]. unfold size_of. pose proof (texts_bound _ F). lia.
Qed.
Lemma log_written log sh ths : inv log sh ths -> exists w g o, wrote log w /\ write_access (wr_mgr w) (wr_o w) = Ok (g, o) /\
  forall d n, new_session C d n (mkSess 0 raw b1 b2 (items log)) = Ok (save d (sio_filename n) (o_data o)).
Proof.
  intros I. destruct (group_file C uncomp b1 b2 (codec_labelled _ _ HC) U1 U2 raw (items log) Ur (group_log _ _ _ I)) as (w & g & o & E1 & E2 & _ & _ & E3).
  exists w, g, o. split; [exact E1|]. split; [exact E2|exact E3].
Qed.
Lemma wrote_snoc log w t n i recs : wrote log w -> records n i recs ->
  wrote (log ++ [(t, (n, i))]) (mkWr (fold_left o_write recs (wr_o w)) (mg_add (wr_mgr w) (item_key i) (o_pos (wr_o w))) n).
Proof.
  intros H (i' & E). unfold wrote, items. rewrite map_app. cbn [map snd]. rewrite write_items_snoc. fold (items log). rewrite H. cbn [bind].
  unfold write_item. cbn [wr_level set_level wr_o wr_mgr]. rewrite E. reflexivity.
Qed.

(** ** One step *)

Lemma phase_same log sh sh' c th : sh_out sh' = sh_out sh -> sh_mgr sh' = sh_mgr sh -> sh_file sh' = sh_file sh -> phase log sh c th -> phase log sh' c th.
Proof.
  intros E1 E2 E3. unfold phase, rest, opened, closed. rewrite E1, E2, E3. exact (fun x => x).
Qed.
Lemma rest_same log sh sh' c : sh_out sh' = sh_out sh -> sh_mgr sh' = sh_mgr sh -> sh_file sh' = sh_file sh -> rest log sh c -> rest log sh' c.
Proof. intros E1 E2 E3. unfold rest, opened, closed. rewrite E1, E2, E3. exact (fun x => x). Qed.

(** what a step of thread [t] has to keep *)
Lemma inv_update log sh ths t th log' sh' th' : inv log sh ths -> nth_error ths t = Some th ->
  map fst (th_done th') ++ th_todo th' = map fst (th_done th) ++ th_todo th ->
  (log' = log /\ committed th' = committed th \/ exists n i, log' = log ++ [(t, (n, i))] /\ label_ok zs n /\ committed th' = committed th ++ [i]) ->
  local_ok th' -> answers_ok sh' th' -> (sh_out sh = None -> sh_out sh' = None) -> size_ok (sh_max sh') -> In (sh_level sh') zs ->
  (critical (th_pc th') = true /\ sh_lock sh' = Some t /\ (sh_lock sh = None \/ sh_lock sh = Some t) /\ phase log' sh' (all_closes (update ths t th')) th' \/
   critical (th_pc th') = false /\ sh_lock sh' = None /\ (sh_lock sh = None \/ sh_lock sh = Some t) /\ rest log' sh' (all_closes (update ths t th')) \/
   critical (th_pc th') = false /\ sh_lock sh' = sh_lock sh /\ critical (th_pc th) = false /\ log' = log /\ tcloses th' = tcloses th /\
     sh_out sh' = sh_out sh /\ sh_mgr sh' = sh_mgr sh /\ sh_file sh' = sh_file sh) ->
  inv log' sh' (update ths t th').
Proof.
  intros I Ht Hprog Hlog Hloc Hans Hout Hmax Hlev Hcase.
  assert (Htl : (t < length progs)%nat) by (rewrite <- (i_len _ _ _ I); apply nth_error_Some; congruence).
  assert (Hcl : critical (th_pc th') = false -> tcloses th' = tcloses th -> all_closes (update ths t th') = all_closes ths).
  { intros _ E. unfold all_closes. pose proof (sum_update tcloses ths t th' th Ht). lia. }
  split.
  - rewrite update_len. exact (i_len _ _ _ I).
  - destruct Hlog as [[-> _]|(n & i & -> & _)]; [exact (i_tids _ _ _ I)|]. apply Forall_app. split; [exact (i_tids _ _ _ I)|]. constructor; [exact Htl|constructor].
  - destruct Hlog as [[-> _]|(n & i & -> & L & _)]; [exact (i_labels _ _ _ I)|]. apply Forall_app. split; [exact (i_labels _ _ _ I)|]. constructor; [exact L|constructor].
  - intros u p thu Hp Hu. destruct (Nat.eq_dec u t) as [->|Hne].
    + rewrite (update_same _ _ _ _ Ht) in Hu. injection Hu as <-. destruct (i_th _ _ _ I t p th Hp Ht) as (A & B & _).
      split; [rewrite Hprog; exact A|]. split; [|split; [exact Hloc|split; [exact Hans|]]].
      * destruct Hlog as [[-> ->]|(n & i & -> & _ & ->)]; [exact B|]. rewrite of_thread_snoc, Nat.eqb_refl, B. reflexivity.
      * intros K. destruct Hcase as [(_ & H & _)|[(H & _)|(H & _)]]; [exact H|congruence|congruence].
    + rewrite update_other in Hu by exact Hne. destruct (i_th _ _ _ I u p thu Hp Hu) as (A & B & D & E & G).
      split; [exact A|]. split; [|split; [exact D|split]].
      * destruct Hlog as [[-> _]|(n & i & -> & _)]; [exact B|]. rewrite of_thread_snoc. replace (Nat.eqb t u) with false by (symmetry; apply Nat.eqb_neq; congruence).
        rewrite app_nil_r. exact B.
      * intros o a Ha. destruct (E o a Ha) as [->|(X & Y)]; [left; reflexivity|]. right. split; [exact (Hout X)|exact Y].
      * intros K. specialize (G K). destruct Hcase as [(_ & _ & [H|H] & _)|[(_ & _ & [H|H] & _)|(_ & H & _)]]; congruence.
  - intros u Hu. destruct Hcase as [(K & H & _ & P)|[(_ & H & _)|(K & H & K0 & -> & Ec & E1 & E2 & E3)]].
    + assert (u = t) by congruence. subst u. exists th'. split; [exact (update_same _ _ _ _ Ht)|]. split; assumption.
    + congruence.
    + rewrite H in Hu. destruct (i_held _ _ _ I u Hu) as (thu & N & Kc & P). assert (Hne : u <> t) by (intros ->; rewrite Ht in N; injection N as <-; congruence).
      exists thu. split; [rewrite update_other by exact Hne; exact N|]. split; [exact Kc|]. rewrite (Hcl K Ec). exact (phase_same _ _ _ _ _ E1 E2 E3 P).
  - intros Hu. destruct Hcase as [(_ & H & _)|[(_ & _ & _ & P)|(K & H & K0 & -> & Ec & E1 & E2 & E3)]]; [congruence|exact P|].
    rewrite H in Hu. rewrite (Hcl K Ec). exact (rest_same _ _ _ _ E1 E2 E3 (i_free _ _ _ I Hu)).
  - exact Hmax.
  - exact Hlev.
Qed.

Lemma answers_finish sh th o l a : th_todo th = o :: l -> answers_ok sh th -> (a = TDone \/ (sh_out sh = None /\ a = TThrew LIOException /\ exists i, o = TWrite i)) ->
  answers_ok sh (finish th a).
Proof.
  intros E H Ha o' a' Hin. unfold finish in Hin. rewrite E in Hin. cbn [th_done] in Hin. apply in_app_or in Hin. destruct Hin as [Hin|[Hin|[]]]; [exact (H _ _ Hin)|].
  injection Hin as <- <-. exact Ha.
Qed.
Lemma program_finish th o l a : th_todo th = o :: l -> map fst (th_done (finish th a)) ++ th_todo (finish th a) = map fst (th_done th) ++ th_todo th.
Proof. intros E. unfold finish. rewrite E. cbn [th_done th_todo]. rewrite map_app, <- app_assoc. reflexivity. Qed.
Lemma closes_finish ths t th o l a : nth_error ths t = Some th -> th_todo th = o :: l ->
  (all_closes (update ths t (finish th a)) + (if is_close o then 1 else 0) = all_closes ths)%nat.
Proof.
  intros Ht E. unfold all_closes. pose proof (sum_update tcloses ths t (finish th a) th Ht) as H. unfold finish in *. rewrite E in *. unfold tcloses, closes in *.
  rewrite E in H. cbn [th_todo filter] in *. destruct (is_close o); cbn [length] in H; lia.
Qed.
Lemma closes_goto ths t th p : nth_error ths t = Some th -> all_closes (update ths t (goto th p)) = all_closes ths.
Proof. intros Ht. unfold all_closes. pose proof (sum_update tcloses ths t (goto th p) th Ht) as H. unfold tcloses, goto in *. cbn [th_todo] in *. lia. Qed.
Lemma committed_goto th p : pending th = [] -> pending (goto th p) = [] -> committed (goto th p) = committed th.
Proof. intros H1 H2. unfold committed. rewrite H1, H2. reflexivity. Qed.
Lemma todo_item t p th log sh i l : thread_inv log sh t p th -> nth_error progs t = Some p -> th_todo th = TWrite i :: l -> item_ok (1, i).
Proof.
  intros (E & _) Hp Et. destruct HP as (H & _). rewrite Forall_forall in H. apply H. eapply in_program; [exact Hp|]. rewrite <- E. apply in_or_app. right. rewrite Et. left. reflexivity.
Qed.

End Inv.
