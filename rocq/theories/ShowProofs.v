(** * Proofs about dumpevent *)

From Verif Require Import Bytes BitModel BitSpec BitLoose StrMap SioModel Ieee ObjModel EventModel IndexModel FileModel FileSpec FileDirect
  ShowModel ShowSpec.

Lemma atoi_text s n : number_text s n -> - 2 ^ 31 < n < 2 ^ 31 -> atoi s = Ok n.
Proof.
  intros H R. unfold atoi. rewrite (atol_text s n H R). cbn [bind]. unfold two31. change (2 ^ 31) with 2147483648 in *.
  destruct (Z.ltb_spec n (- (2147483648))); [lia|]. destruct (Z.leb_spec 2147483648 n); [lia|reflexivity].
Qed.
Lemma not_space c : ~ In c white -> is_space c = false.
Proof. intros H. destruct (is_space c) eqn:E; [|reflexivity]. apply space_white in E. contradiction. Qed.
Lemma words_white ws s : Forall (fun c => In c white) ws -> env_words [] (ws ++ s) = env_words [] s.
Proof.
  intros H. induction H as [|c ws Hc _ IH]; [reflexivity|]. cbn [app env_words]. rewrite (proj2 (space_white c) Hc). exact IH.
Qed.
Lemma words_word w s : forall cur, Forall (fun c => ~ In c white) w -> env_words cur (w ++ s) = env_words (cur ++ w) s.
Proof.
  induction w as [|c w IH]; intros cur H; [rewrite app_nil_r; reflexivity|]. inversion H; subst.
  cbn [app env_words]. rewrite not_space by assumption. rewrite IH by assumption. rewrite <- app_assoc. reflexivity.
Qed.
Lemma words_spaced s l : spaced s l -> env_words [] s = l.
Proof.
  intros H. induction H as [ws W|ws w s l W N F B _ IH].
  - rewrite <- (app_nil_r ws), words_white by exact W. reflexivity.
  - rewrite words_white by exact W. rewrite words_word by exact F. cbn [app].
    destruct w as [|c w]; [contradiction|]. destruct s as [|x s]; [cbn [env_words] in *; rewrite <- IH; reflexivity|].
    cbn [env_words] in *. rewrite (proj2 (space_white x) (B x s eq_refl)) in *. rewrite IH. reflexivity.
Qed.
Lemma names_selected env l : selects env l -> env_names env = l.
Proof. destruct env as [s|]; cbn [selects env_names]; [apply words_spaced|intros ->; reflexivity]. Qed.

Section Show.
Context (uncomp : bytes -> option bytes) (srt : forall A : Type, (A -> Z) -> list A -> list A) (ignore_null : bool).

(** the result of the n-th event as that of two calls *)
Definition of_two (n : Z) (rs : list result) : dumped :=
  match rs with
  | [RDone; REvt (Some l)] => DShown l
  | [RDone; REvt None] => DFew n
  | [RDone; RThrow e] => handled e
  | [RDone; RUB k] => DUB k
  | RThrow e :: _ => handled e
  | RUB k :: _ => DUB k
  | _ => DUsage
  end.
Lemma nth_calls d file a env new n : atoi a = Ok n -> 1 <= n ->
  dumpevent uncomp srt ignore_null d [file; a] env new
  = of_two n (use_file uncomp srt ignore_null d file [Skip (n - 1); Next true] (new false (env_names env))).
Proof.
  intros A N. unfold dumpevent. rewrite A. destruct (Z.ltb_spec n 1); [lia|]. destruct (Z.ltb_spec 0 n); [|lia].
  unfold use_file. destruct (open_file uncomp d file (new false (env_names env))) as [[u|e|k] r]; [|reflexivity|reflexivity].
  cbn [run_steps one_step]. destruct (skip_events (n - 1) r) as [[u1|e|k] r1]; [|reflexivity|reflexivity].
  unfold one_op. destruct (read_next_event uncomp srt ignore_null d r1) as [[[l|]|e|k] r2]; reflexivity.
Qed.
Definition of_one (missing : dumped) (rs : list result) : dumped :=
  match rs with
  | [REvt (Some l)] => DShown l
  | [REvt None] => missing
  | RThrow e :: _ => handled e
  | RUB k :: _ => DUB k
  | _ => DUsage
  end.
Lemma selected_calls d file a b rest env new run num : atoi a = Ok run -> atoi b = Ok num ->
  dumpevent uncomp srt ignore_null d (file :: a :: b :: rest) env new
  = of_one (DNotFound run num) (use_file uncomp srt ignore_null d file [GetEvt run num] (new true (env_names env))).
Proof.
  intros A B. unfold dumpevent. rewrite A. cbn [bind]. rewrite B. cbn [bind].
  unfold use_file. destruct (open_file uncomp d file (new true (env_names env))) as [[u|e|k] r]; [|reflexivity|reflexivity].
  cbn [run_steps one_step]. destruct (read_event_at uncomp srt ignore_null d run num r) as [[[l|]|e|k] r2]; reflexivity.
Qed.

Lemma evts_split pre h e only post : evts (pre ++ WEvt h e only :: post) = evts pre + 1 + evts post.
Proof. unfold evts, Zlen. rewrite filter_app. cbn [filter is_wevt]. rewrite app_length. cbn [length]. lia. Qed.
Lemma evts_none l : evts l = 0 -> existsb is_wevt l = false.
Proof.
  unfold evts, Zlen. induction l as [|x l IH]; [reflexivity|]. cbn [filter existsb]. destruct (is_wevt x); [cbn [length]; lia|exact IH].
Qed.
Lemma none_evts l : existsb is_wevt l = false -> evts l = 0.
Proof.
  unfold evts, Zlen. induction l as [|x l IH]; [reflexivity|]. cbn [filter existsb]. destruct (is_wevt x); [discriminate|exact IH].
Qed.
Lemma evts_nonneg l : 0 <= evts l.
Proof. unfold evts, Zlen. lia. Qed.
(** the place of an event is determined by the number of events before it *)
Lemma same_place : forall pre pre' h e only post h' e' only' post', pre ++ WEvt h e only :: post = pre' ++ WEvt h' e' only' :: post' ->
  evts pre = evts pre' -> h = h' /\ e = e' /\ only = only' /\ post = post'.
Proof.
  induction pre as [|x pre IH]; intros pre' h e only post h' e' only' post' E N.
  - destruct pre' as [|y pre']; cbn [app] in E.
    + injection E as -> -> -> ->. repeat split.
    + injection E as <- E. unfold evts, Zlen in N. cbn [filter is_wevt length] in N. lia.
  - destruct pre' as [|y pre']; cbn [app] in E.
    + injection E as -> E. unfold evts, Zlen in N. cbn [filter is_wevt length] in N. lia.
    + injection E as -> E. apply (IH pre' h e only post h' e' only' post' E). unfold evts, Zlen in *. cbn [filter] in N. destruct (is_wevt y); cbn [length] in N; lia.
Qed.

(** the next event, in front of the reader there is something or nothing *)
Lemma late_answer names fn W next rs : answers srt names fn false W next None [Next true] rs -> rs = [RThrow EBadState].
Proof. intros B. inversion B; subst. match goal with H : answers _ _ _ _ _ _ _ [] _ |- _ => inversion H; subst end. reflexivity. Qed.
Lemma get_answer names fn W next l rs : answers srt names fn false W next (Some l) [Next true] rs ->
  (exists pre h e only post le, l = pre ++ WEvt h e only :: post /\ evts pre = 0 /\ event_copy srt names next h e only le /\ rs = [REvt (Some le)]) \/
  (evts l = 0 /\ rs = [REvt None]).
Proof.
  intros B. inversion B; subst; match goal with H : answers _ _ _ _ _ _ _ [] _ |- _ => inversion H; subst end.
  - left. eexists _, _, _, _, _, _. split; [reflexivity|]. split; [apply none_evts; assumption|]. split; [eassumption|reflexivity].
  - right. split; [apply none_evts; assumption|reflexivity].
Qed.
Lemma skip_answer names fn W next l k rs : answers srt names fn false W next (Some l) [Skip k; Next true] rs ->
  (k < 1 /\ exists rs1, rs = RDone :: rs1 /\ answers srt names fn false W next (Some l) [Next true] rs1) \/
  (exists pre h e only post rs1, l = pre ++ WEvt h e only :: post /\ evts pre = k - 1 /\ rs = RDone :: rs1 /\
     answers srt names fn false W next (Some post) [Next true] rs1) \/
  (evts l < k /\ exists rs1, rs = RDone :: rs1 /\ answers srt names fn false W next None [Next true] rs1).
Proof.
  intros B. inversion B; subst.
  - left. split; [assumption|]. eexists. split; [reflexivity|assumption].
  - right. left. eexists _, _, _, _, _, _. split; [reflexivity|]. split; [assumption|]. split; [reflexivity|assumption].
  - right. right. split; [assumption|]. eexists. split; [reflexivity|assumption].
Qed.

(** what reading the n-th event gives *)
Lemma nth_answer names fn W next n rs : 1 <= n -> answers srt names fn false W next (Some W) [Skip (n - 1); Next true] rs ->
  (forall pre h e only post, W = pre ++ WEvt h e only :: post -> evts pre = n - 1 ->
     exists le, rs = [RDone; REvt (Some le)] /\ event_copy srt names next h e only le) /\
  (evts W = n - 1 -> rs = [RDone; REvt None]) /\
  (evts W < n - 1 -> rs = [RDone; RThrow EBadState]).
Proof.
  intros N A. pose proof (evts_nonneg W) as NW.
  destruct (skip_answer _ _ _ _ _ _ _ A) as [(K & rs1 & -> & B)|[(pre0 & h0 & e0 & only0 & l & rs1 & EW & K & -> & B)|(K & rs1 & -> & B)]].
  - (* nothing to skip *)
    destruct (get_answer _ _ _ _ _ _ B) as [(pre & h & e & only & post & le & E & E0 & C & ->)|[E ->]].
    + pose proof (evts_nonneg post). split; [|split].
      * intros pre' h' e' only' post' E' E1. rewrite E in E'. destruct (same_place _ _ _ _ _ _ _ _ _ _ E' ltac:(lia)) as (<- & <- & <- & _).
        exists le. split; [reflexivity|exact C].
      * rewrite E, evts_split. lia.
      * rewrite E, evts_split. lia.
    + split; [|split].
      * intros pre' h' e' only' post' E'. rewrite E', evts_split in E. pose proof (evts_nonneg pre'). pose proof (evts_nonneg post'). lia.
      * intros _. reflexivity.
      * lia.
  - destruct (get_answer _ _ _ _ _ _ B) as [(pre & h & e & only & post & le & E & E0 & C & ->)|[E ->]].
    + rewrite E in EW. pose proof (evts_nonneg post). split; [|split].
      * intros pre' h' e' only' post' E' E1.
        destruct (same_place (pre0 ++ WEvt h0 e0 only0 :: pre) pre' h e only post h' e' only' post') as (<- & <- & <- & _).
        { rewrite <- E', EW, <- app_assoc. reflexivity. }
        { rewrite evts_split. lia. }
        exists le. split; [reflexivity|exact C].
      * rewrite EW, !evts_split. lia.
      * rewrite EW, !evts_split. lia.
    + split; [|split].
      * intros pre' h' e' only' post' E' E1. assert (Q : evts W = evts pre' + 1 + evts post') by (rewrite E'; apply evts_split).
        rewrite EW, evts_split in Q. pose proof (evts_nonneg post'). lia.
      * intros _. reflexivity.
      * rewrite EW, evts_split. lia.
  - rewrite (late_answer _ _ _ _ _ B). split; [|split].
    + intros pre' h' e' only' post' E' E1. rewrite E', evts_split in K. pose proof (evts_nonneg post'). lia.
    + lia.
    + intros _. reflexivity.
Qed.
End Show.
