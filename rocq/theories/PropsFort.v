(** * The Fortran interface: vectors, parameters and run headers *)

From Verif Require Import Bytes StrMap SioModel ObjModel EventModel EventFacts EventExamples IndexModel FileModel FileSpec FileExamples ImplModel FortModel FortSpec FortProofs.

(** ** C65: what a Fortran program puts into vectors, parameters and run headers is what it gets back *)

(** A vector made from an array, or from a matrix of strings, has the length and the elements of the array; copied to another array
    it gives the elements again, as many as there is room for, and the number of them; nothing else in that array changes.
    Rows must be long enough for the strings.  There is no such function for vectors of LCObjects. *)
Theorem C65_vectors : forall s lc g a v, stands_for g v -> size_of v < 2 ^ 31 -> a <> 0 -> f_vec s a = None -> ~ (lc = true /\ kind_of v = KP) ->
  exists s', fstep s (F_create lc g a) = Ok (s', ONum a) /\
    fstep s' (F_length lc (args_kind g) a) = Ok (s', ONum (size_of v)) /\
    (forall i e, 1 <= i -> has_element v i e -> fstep s' (F_element lc (args_kind g) a i) = Ok (s', OElem e)) /\
    (forall g2 n, target g2 v n -> exists g2', fstep s' (F_fetch lc a g2) = Ok (s', OArgs 1 g2') /\
       stands_for g2' (take (Z.min n (size_of v)) v) /\ rest_kept g2 g2' (Z.min n (size_of v)) v).
Proof. exact vectors. Qed.
Print Assumptions C65_vectors.

Definition ex_none : fstate := mkFS (fun _ => None) (fun a => if a =? 5 then Some (CEvent, no_params) else if a =? 6 then Some (CColl, no_params) else None).
(** rows of four characters and a NUL; what is behind a string is arbitrary *)
Definition ex_mat : bytes := str "TPC" ++ [x00; x41] ++ str "ECal" ++ [x00] ++ [x00] ++ str "abcd".
Definition ex_names3 : list bytes := [str "TPC"; str "ECal"; []].
Lemma ex_mat_ok : stands_for (AS ex_mat 3 4) (VS ex_names3).
Proof.
  apply (for_strings ex_names3); [lia|]. intros [|[|[|j]]] s E; try (destruct j; discriminate E).
  1-3: injection E as <-; split; [cbn; intuition discriminate|eexists; reflexivity].
Qed.
Example C65_vectors_case : stands_for (AI [7; 8; 9; 10] 3) (VI [7; 8; 9]) /\ stands_for (AS ex_mat 3 4) (VS ex_names3) /\
  target (AS (repeat x2a 20) 3 5) (VS ex_names3) 3 /\ target (AI [1; 2; 3; 4; 5] 2) (VI [7; 8; 9]) 2 /\ has_element (VS ex_names3) 2 (EStr (str "ECal")) /\
  frun ex_none [F_create false (AI [7; 8; 9; 10] 3) 100; F_create true (AS ex_mat 3 4) 200; F_length false KI 100; F_element true KS 200 2;
    F_fetch false 100 (AI [1; 2; 3; 4; 5] 2); F_fetch false 100 (AI [1; 2; 3; 4; 5] 5); F_fetch true 200 (AS (repeat x2a 20) 3 5); F_length true KS 200] =
  Ok (match frun ex_none [F_create false (AI [7; 8; 9; 10] 3) 100; F_create true (AS ex_mat 3 4) 200] with Ok (s, _) => s | _ => ex_none end,
   [ONum 100; ONum 200; ONum 3; OElem (EStr (str "ECal")); OArgs 1 (AI [7; 8; 3; 4; 5] 2); OArgs 1 (AI [7; 8; 9; 4; 5] 3);
    OArgs 1 (AS (str "TPC" ++ [x00] ++ repeat x2a 2 ++ str "ECal" ++ [x00; x2a] ++ [x00] ++ repeat x2a 7) 3 5); ONum 3]).
Proof.
  split; [exact (for_ints [7; 8; 9] [10])|]. split; [exact ex_mat_ok|].
  split; [cbn [target]; repeat split; try lia; try (vm_compute; discriminate); repeat (apply Forall_cons || apply Forall_nil); vm_compute; discriminate|].
  split; [cbn [target]; unfold Zlen; cbn [length]; lia|]. split; [reflexivity|]. vm_compute. reflexivity.
Qed.

(** If a row is too short the string is not truncated: it runs into the next rows, and the call succeeds. *)
Theorem C65_short_row_refuted : exists l mem nch mem', Forall (fun s => ~ In x00 s) l /\ fetch (VS l) (AS mem (Zlen l) nch) = Ok (AS mem' (Zlen l) nch) /\
  make (AS mem' (Zlen l) nch) = Ok (VS [str "abd"; str "d"]) /\ l = [str "abc"; str "d"].
Proof.
  exists [str "abc"; str "d"], (repeat x2a 4), 1, (str "abd" ++ [x00]).
  split; [repeat (apply Forall_cons || apply Forall_nil); cbn; intuition discriminate|]. repeat split; vm_compute; reflexivity.
Qed.
Print Assumptions C65_short_row_refuted.
(** In the last row it is written behind the end of the matrix. *)
Theorem C65_last_row_refuted : exists l mem nch, Forall (fun s => ~ In x00 s) l /\ Zlen mem = Zlen l * (nch + 1) /\ 0 <= nch /\
  fetch (VS l) (AS mem (Zlen l) nch) = UB UBOutOfBounds.
Proof.
  exists [str "d"; str "abc"], (repeat x2a 4), 1. split; [repeat (apply Forall_cons || apply Forall_nil); cbn; intuition discriminate|].
  split; [reflexivity|]. split; [lia|]. vm_compute. reflexivity.
Qed.
Print Assumptions C65_last_row_refuted.

(** Parameters: in every program without undefined behaviour, if a vector is made from an array, is not deleted until it is handed to lcsetparameters
    for an object and key, and no further values of this type are set for this object and key, then lcgetparameters into a new
    (empty) LCIntVec, LCFloatVec or LCStrVec gives the values of the array.  Afterwards the first vector may be deleted; whatever
    happens to other keys, types and objects does not matter. *)
Theorem C65_parameters : forall k nm s0 c1 c2 c3 g p v cls obj key s outs q g0 w g2 n,
  methods k = Some nm -> maps s0 -> stands_for g v -> kind_of v = k -> size_of v < 2 ^ 31 -> In cls class_names ->
  frun s0 (c1 ++ F_create false g p :: c2 ++ F_set cls obj (fst nm) key p :: c3) = Ok (s, outs) ->
  Forall (fun c => forall k', c <> F_delete k' p) c2 -> Forall (fun c => forall cls' p', c <> F_set cls' obj (fst nm) key p') c3 ->
  q <> 0 -> f_vec s q = None -> stands_for g0 w -> size_of w = 0 -> kind_of w = k -> target g2 v n ->
  exists s' g2', frun s [F_create true g0 q; F_get cls obj (snd nm) key q; F_fetch true q g2] = Ok (s', [ONum q; ONum 1; OArgs 1 g2']) /\
    stands_for g2' (take (Z.min n (size_of v)) v) /\ rest_kept g2 g2' (Z.min n (size_of v)) v.
Proof. exact set_then_get. Qed.
Print Assumptions C65_parameters.

(** the key has other values before, the vector is deleted and its address used again *)
Definition ex_before : list fcall := [F_create false (AI [1; 2] 2) 100; F_set (str "LCEvent") 5 (str "setIntValues") (str "k") 100].
Definition ex_between : list fcall := [F_create false (AS ex_mat 3 4) 300; F_set (str "LCEvent") 5 (str "setStringValues") (str "k") 300].
Definition ex_after : list fcall :=
  [F_delete KI 200; F_create false (AI [3; 4] 2) 200; F_set (str "LCEvent") 5 (str "setIntValues") (str "j") 200; F_set (str "LCCollection") 6 (str "setIntValues") (str "k") 100;
   F_delete KI 200].
Definition ex_all : list fcall :=
  ex_before ++ F_create false (AI [7; 8; 9] 3) 200 :: ex_between ++ F_set (str "LCEvent") 5 (str "setIntValues") (str "k") 200 :: ex_after.
Definition ex_end : fstate := match frun ex_none ex_all with Ok (s, _) => s | _ => ex_none end.
Example C65_parameters_case : maps ex_none /\ frun ex_none ex_all = Ok (ex_end, [ONum 100; ONum 1; ONum 200; ONum 300; ONum 1; ONum 1; ONum 1; ONum 200; ONum 1; ONum 1; ONum 1]) /\
  Forall (fun c => forall k', c <> F_delete k' 200) ex_between /\ Forall (fun c => forall cls' p', c <> F_set cls' 5 (str "setIntValues") (str "k") p') ex_after /\
  f_vec ex_end 200 = None /\ stands_for (AI [] 0) (VI []) /\
  match frun ex_end [F_create true (AI [] 0) 200; F_get (str "LCEvent") 5 (str "getIntValues") (str "k") 200; F_fetch true 200 (AI [0; 0; 0; 0] 4)] with
  | Ok (_, o) => o = [ONum 200; ONum 1; OArgs 1 (AI [7; 8; 9; 0] 3)] | _ => False end.
Proof.
  split. { intros a c p. cbn [f_par ex_none]. destruct (a =? 5); [intros E; injection E as <- <-; repeat split; constructor|]. destruct (a =? 6); [intros E; injection E as <- <-; repeat split; constructor|discriminate]. }
  split; [vm_compute; reflexivity|]. split; [repeat (apply Forall_cons || apply Forall_nil); intros; discriminate|].
  split; [repeat (apply Forall_cons || apply Forall_nil); intros; discriminate|]. split; [vm_compute; reflexivity|]. split; [exact (for_ints [] [])|]. vm_compute. reflexivity.
Qed.

(** The manual says that the vectors of the wrapper functions for STL vectors are to be used for both calls; lcgetparameters casts the pointer
    to LCObject, so that the call is undefined for such a vector. *)
Theorem C65_stl_vector_refuted : exists s q, f_vec s q = Some (mkFV false (VI [])) /\ (exists p, f_par s 5 = Some (CEvent, p) /\ sm_get (str "k") (p_int p) = Some [7; 8; 9]) /\
  fstep s (F_get (str "LCEvent") 5 (str "getIntValues") (str "k") q) = UB UBPrecondition.
Proof.
  exists (mkFS (ImplModel.put (f_vec ex_end) 200 (mkFV false (VI []))) (f_par ex_end)), 200. split; [vm_compute; reflexivity|].
  split; [eexists; split; vm_compute; reflexivity|]. vm_compute. reflexivity.
Qed.
Print Assumptions C65_stl_vector_refuted.
(** The names of the string parameters are not to be had by the method getStringKeys, only by getStringtKeys. *)
Theorem C65_string_keys_refuted : exists s q p, f_vec s q = Some (mkFV true (VS [])) /\ f_par s 5 = Some (CEvent, p) /\ sm_get (str "k") (p_str p) = Some ex_names3 /\
  fstep s (F_get (str "LCEvent") 5 (str "getStringKeys") [] q) = Ok (s, ONum 0) /\
  exists s', fstep s (F_get (str "LCEvent") 5 (str "getStringtKeys") [] q) = Ok (s', ONum 1) /\ f_vec s' q = Some (mkFV true (VS [str "k"])).
Proof.
  exists (mkFS (ImplModel.put (f_vec ex_end) 200 (mkFV true (VS []))) (f_par ex_end)), 200.
  eexists. split; [vm_compute; reflexivity|]. split; [vm_compute; reflexivity|]. split; [vm_compute; reflexivity|]. split; [reflexivity|].
  eexists. split; [reflexivity|]. vm_compute. reflexivity.
Qed.
Print Assumptions C65_string_keys_refuted.

(** Unknown names of classes or methods: both functions report an error and change nothing. *)
Theorem C65_unknown : forall s cls obj method key p c pr, (~ In cls class_names \/ class_of cls = Some c /\ pars_of s c obj = Ok pr /\
    (forall k nm, methods k = Some nm -> method <> fst nm /\ method <> snd nm) /\ ~ In method [str "getIntKeys"; str "getFloatKeys"; str "getStringtKeys"]) ->
  (exists s', fstep s (F_set cls obj method key p) = Ok (s', ONum 0) /\ f_vec s' = f_vec s /\ forall a, f_par s' a = f_par s a) /\
  fstep s (F_get cls obj method key p) = Ok (s, ONum 0).
Proof. exact unknown_names. Qed.
Print Assumptions C65_unknown.
Example C65_unknown_case : ~ In (str "LCEventImpl") class_names /\ (class_of (str "LCEvent") = Some CEvent /\ pars_of ex_none CEvent 5 = Ok no_params /\
    (forall k nm, methods k = Some nm -> str "setIntVals" <> fst nm /\ str "setIntVals" <> snd nm) /\ ~ In (str "setIntVals") [str "getIntKeys"; str "getFloatKeys"; str "getStringtKeys"]).
Proof.
  split; [intros [E|[E|[E|[]]]]; discriminate E|]. split; [reflexivity|]. split; [reflexivity|]. split; [|intros [E|[E|[E|[]]]]; discriminate E].
  intros [] nm E; cbn [methods] in E; try discriminate E; injection E as <-; split; discriminate.
Qed.

(** Run headers: what lcreadnextrunheader gives for a header is what was handed to lcwriterunheader (that the header is read back as it was written is C09 and
    C14), if the strings and the matrix are large enough. *)
Theorem C65_run_header : forall irun det desc mem nch l, 0 <= nch < 2 ^ 31 - 1 -> matrix mem nch l -> ~ In x00 det -> ~ In x00 desc ->
  exists h, f_write_run irun det desc mem (Zlen l) nch = Ok h /\
    forall det2 desc2 mem2 nch2, Zlen det < Zlen det2 -> Zlen desc < Zlen desc2 -> target (AS mem2 (Zlen l) nch2) (VS l) (Zlen l) -> Zlen l < 2 ^ 31 ->
    exists mem2', f_read_run (Some h) det2 desc2 mem2 nch2 =
      Ok (irun, det ++ x00 :: skipn (S (length det)) det2, desc ++ x00 :: skipn (S (length desc)) desc2, mem2', Zlen l) /\
      matrix mem2' nch2 l /\ rest_kept (AS mem2 (Zlen l) nch2) (AS mem2' (Zlen l) nch2) (Zlen l) (VS l).
Proof. exact run_header. Qed.
Print Assumptions C65_run_header.
Example C65_run_header_case : matrix ex_mat 4 ex_names3 /\ f_write_run 42 (str "D") (str "descr") ex_mat 3 4 = Ok (mkRun 42 (str "D") (str "descr") ex_names3 no_params) /\
  f_read_run (Some (mkRun 42 (str "D") (str "descr") ex_names3 no_params)) (repeat x2a 4) (repeat x2a 6) (repeat x2a 15) 4 =
  Ok (42, [x44; x00; x2a; x2a], str "descr" ++ [x00], str "TPC" ++ [x00; x2a] ++ str "ECal" ++ [x00] ++ [x00] ++ repeat x2a 4, 3).
Proof. split; [pose proof ex_mat_ok as H; inversion H; assumption|]. split; vm_compute; reflexivity. Qed.

(** At the end of the file readNextRunHeader returns a null pointer, which lcreadnextrunheader dereferences. *)
Theorem C65_last_run_refuted : exists d r r', snd (open_files ex_uncomp d [ex_name] (ex_read false)) = r /\ fst (open_files ex_uncomp d [ex_name] (ex_read false)) = Ok tt /\
  read_next_run ex_uncomp d r = (Ok None, r') /\ forall det desc mem nch, f_read_run None det desc mem nch = UB UBNullDeref.
Proof.
  exists (ex_make [ex_small 5 1]), (snd (open_files ex_uncomp (ex_make [ex_small 5 1]) [ex_name] (ex_read false))),
    (snd (read_next_run ex_uncomp (ex_make [ex_small 5 1]) (snd (open_files ex_uncomp (ex_make [ex_small 5 1]) [ex_name] (ex_read false))))).
  split; [reflexivity|]. split; [vm_compute; reflexivity|]. split; [|reflexivity]. vm_compute. reflexivity.
Qed.
Print Assumptions C65_last_run_refuted.
