(** * Copies of copies: the size of the records

    A copy takes as many bytes as the original. *)

From Verif Require Import Bytes StrMap SioModel SioProofs SioRecord SioSpec Ieee ObjModel ObjSpec ObjProofs CollSpec EventSpec EventFacts
  CollProofs CopyObj.

(** calls that write the same number of bytes *)
Definition alike1 (c c' : dcall) : Prop :=
  match c, c' with
  | DData a, DData b => length a = length b
  | DTag _, DTag _ | DPtr _, DPtr _ => True
  | _, _ => False
  end.
Definition alike (w w' : list dcall) : Prop := Forall2 alike1 w w'.

Lemma alike_size w w' : alike w w' -> Zlen (render0 w') = Zlen (render0 w).
Proof.
  induction 1 as [|c c' w w' H F IH]; [reflexivity|]. cbn [render0 flat_map]. fold (render0 w) (render0 w'). rewrite !Zlen_app, IH. f_equal.
  destruct c, c'; cbn [alike1] in H; try contradiction; cbn [render0_call]; try reflexivity.
  unfold padz. replace (Zlen bs0) with (Zlen bs) by (unfold Zlen; rewrite H; reflexivity).
  rewrite !Zlen_app. f_equal. unfold Zlen. rewrite H. reflexivity.
Qed.
Lemma alike_refl w : alike w w.
Proof. induction w as [|c w IH]; constructor; [destruct c; cbn; auto|exact IH]. Qed.
Lemma alike_app a b a' b' : alike a a' -> alike b b' -> alike (a ++ b) (a' ++ b').
Proof. apply Forall2_app. Qed.
Lemma alike_be n x y : alike [DData (be n x)] [DData (be n y)].
Proof. constructor; [|constructor]. cbn. pose proof (Zlen_be n x). pose proof (Zlen_be n y). unfold Zlen in *. lia. Qed.
Lemma alike_i32 x y : alike (w_i32 x) (w_i32 y). Proof. apply alike_be. Qed.
Lemma alike_f32 x y : alike (w_f32 x) (w_f32 y). Proof. apply alike_be. Qed.
Lemma alike_tag x y : alike [DTag x] [DTag y]. Proof. constructor; [exact I|constructor]. Qed.
Lemma alike_ptr x y : alike [DPtr x] [DPtr y]. Proof. constructor; [exact I|constructor]. Qed.
Lemma alike_when b w w' : (b = true -> alike w w') -> alike (w_when b w) (w_when b w').
Proof. intros H. destruct b; [apply H; reflexivity|constructor]. Qed.
Lemma enc_len n l : Zlen (enc_elems n l) = Z.of_nat n * Zlen l.
Proof.
  induction l as [|x l IH]; [unfold Zlen; cbn; lia|]. unfold enc_elems in *. cbn [flat_map]. rewrite Zlen_app, Zlen_be, IH, Zlen_cons. lia.
Qed.
Lemma alike_arr n l l' : Zlen l' = Zlen l -> alike (w_arr n l) (w_arr n l').
Proof.
  intros H. constructor; [|constructor]. cbn. pose proof (enc_len n l). pose proof (enc_len n l'). unfold Zlen in *. lia.
Qed.
Lemma alike_fm {A B} (f : A -> list dcall) (g : B -> list dcall) l l' :
  Forall2 (fun x y => alike (f x) (g y)) l l' -> alike (flat_map f l) (flat_map g l').
Proof. induction 1 as [|x y l l' H F IH]; [constructor|]. cbn [flat_map]. apply alike_app; assumption. Qed.
Lemma alike_fm_map {A} (f : A -> list dcall) (g : A -> A) l :
  (forall x, alike (f x) (f (g x))) -> alike (flat_map f l) (flat_map f (map g l)).
Proof. intros H. induction l as [|x l IH]; [constructor|]. cbn [map flat_map]. apply alike_app; [apply H|exact IH]. Qed.
Lemma alike_ptrs f l : alike (w_ptrs l) (w_ptrs (map f l)).
Proof. apply alike_fm_map. intros x. apply alike_ptr. Qed.
Lemma cnt_map {A B} (f : A -> B) l : cnt (map f l) = cnt l.
Proof. unfold cnt. rewrite Zlen_map. reflexivity. Qed.
Lemma upto_map {A B} (f : A -> B) l : upto (map f l) = map f (upto l).
Proof. unfold upto. rewrite cnt_map. apply firstn_map. Qed.
Lemma kept_true {A} (x d : A) : kept true x d = x. Proof. reflexivity. Qed.

Create HintDb alike.
Global Hint Resolve alike_refl alike_i32 alike_f32 alike_tag alike_ptr alike_ptrs : alike.
Ltac alike_when := match goal with |- alike (w_when _ _) (w_when _ _) => apply alike_when; let E := fresh "E" in intros E; unfold bit_set in E;
  try (match type of E with Z.testbit _ ?k = true => let k' := eval cbv in k in change k with k' in E end); rewrite ?E; cbn [kept] end.
Ltac alikes := repeat first [ apply alike_app | alike_when | solve [auto 1 with alike] ].

Section Sizes.
Context (n1 t1 : addr -> addr) (flag : Z) (fixed : bool) (ds : list addr).
Notation cp := (copied n1 t1 flag fixed ds).

Ltac alike_obj := let E1 := fresh in let E2 := fresh in intros E1 E2; apply Ok_inj in E1, E2; subst;
  cbn -[as_float Z.testbit w_i32 w_ptrs w_arr w_f32 w_vec w_i8 w_when upto cnt app flat_map write_pid write_tstate];
  rewrite ?cnt_map, ?upto_map; alikes; try (apply alike_arr; rewrite ?Zlen_map); try reflexivity.

Lemma obj_alike ty hs hs' a a' o w w' : h_flag hs = flag -> h_flag hs' = flag -> h_sizes hs' = h_sizes hs ->
  type_of o = ty -> elem_ok flag o ->
  write_obj ty hs a o = Ok w -> write_obj ty hs' a' (cp o) = Ok w' -> alike w w'.
Proof.
  intros F1 F2 Fs Ht Ho. destruct o as [o|o|o|o|o|o|o|o|o|o|o|o|o|o|o|o|o|o|o|o|o]; cbn [type_of] in Ht; subst ty; cbn [write_obj copied more map_refs map_owned stored];
    rewrite ?F1, ?F2, ?Fs.
  - unfold write_mcp. alike_obj.
  - unfold write_simcalhit. alike_obj. rewrite map_map. apply alike_fm_map. intros c. unfold write_cont.
    cbn -[Z.testbit w_i32 w_ptrs w_arr w_f32 w_when app]. alikes.
  - unfold write_rawcalhit. alike_obj.
  - unfold write_calhit. alike_obj.
  - unfold write_simtrkhit. alike_obj.
  - unfold write_tpchit. alike_obj.
  - unfold write_trkraw. alike_obj.
  - unfold write_trkdata. alike_obj.
  - unfold write_trkpulse. alike_obj.
  - unfold write_trkhit. alike_obj.
  - unfold write_trkhitp. alike_obj.
  - unfold write_trkhitz. alike_obj.
  - unfold write_track. alike_obj.
  - unfold write_cluster. cbn -[Z.testbit w_i32 w_ptrs w_arr w_f32 w_when app upto cnt flat_map write_pid bind kept write_hits].
    destruct Ho as [Ho Hf]. unfold bit_set, CLBIT_HITS. destruct (Z.testbit flag 31) eqn:Eb; cbn [kept].
    + specialize (Hf Eb). unfold write_hits.
      assert (X1 : cl_hits (map_refs_cluster t1 (stored_cluster flag o)) = map t1 (cl_hits o)) by (cbn -[Z.testbit]; rewrite Eb; reflexivity).
      assert (X2 : cl_weights (map_refs_cluster t1 (stored_cluster flag o)) = cl_weights o) by (cbn -[Z.testbit]; rewrite Eb; reflexivity).
      rewrite X1, X2. rewrite cnt_map. set (n := Z.to_nat (cnt (cl_hits o))).
      destruct (Nat.ltb (length (cl_weights o)) n); [discriminate|]. cbn [bind]. alike_obj.
      rewrite firstn_map. generalize (firstn n (cl_hits o)) (firstn n (cl_weights o)). intros l.
      induction l as [|x l IH]; intros [|y m]; try constructor; cbn [map combine flat_map app fst snd]; [exact I|].
      constructor; [reflexivity|apply IH].
    + cbn [bind]. alike_obj.
  - unfold write_recp. alike_obj.
    apply alike_fm_map. intros [x p]. unfold write_rpid. cbn [fst snd]. alikes.
  - unfold write_lcrel. alike_obj.
  - unfold write_vertex. alike_obj. apply alike_be.
  - unfold write_lcvec. alike_obj.
  - unfold write_lcvec. alike_obj.
  - unfold write_lcvec. alike_obj.
  - unfold write_genobj. cbn [go_int go_flt go_dbl stored_genobj]. unfold go_sizes. cbn [go_int go_flt go_dbl stored_genobj].
    destruct (match h_sizes hs with Some s => s | None => _ end) as [[ni nf] nd].
    destruct (go_vals w_i32 ni (go_int o)); cbn [bind]; try discriminate.
    destruct (go_vals w_f32 nf (go_flt o)); cbn [bind]; try discriminate.
    destruct (go_vals w_f64 nd (go_dbl o)); cbn [bind]; try discriminate.
    alike_obj.
Qed.
End Sizes.
