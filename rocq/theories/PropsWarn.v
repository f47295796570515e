(** * Warnings *)

From Verif Require Import Bytes StrMap WarnModel WarnSpec WarnProofs.
From Coq Require Import Sorted.

(** ** C66: a warning is shown as often as it may be, and once more at the end *)

(** For every sequence of calls: what each call shows follows from the calls before (the text and how often it will be shown again; nothing after the
    maximal number; an exception if a name is registered again), and at the end the warnings that were shown are listed below one heading, in the
    order of their names, each once; without such warnings nothing is shown. *)
Theorem C66_warnings : forall calls w outs, wrun [] calls = (w, outs) -> all_show [] calls outs /\
  exists l, (wclose w true = match l with [] => [] | _ => WHeading :: map (fun x => WEnd (snd x)) l end) /\ StronglySorted str_lt (map fst l) /\
    forall id txt, In (id, txt) l <-> was_shown calls id txt.
Proof. exact warned. Qed.
Print Assumptions C66_warnings.

(** Of [n] calls behind the registration with the number [max], the first [max] ones show the warning. *)
Theorem C66_times : forall id txt max before l outs, all_show before l outs -> declared before id txt max ->
  Zlen (filter (fun x => match x with (WPrint i, Ok (_ :: _)) => bytes_eqb i id | _ => false end) (combine l outs)) =
  Z.min (asked l id) (Z.max 0 (max - asked before id)).
Proof. exact (fun id txt max before l outs => times_ok id txt max l before outs). Qed.
Print Assumptions C66_times.

Definition ex_warn : list wcall :=
  [WRegister (str "b") (str "B!") 2; WPrint (str "b"); WRegister (str "a") (str "A!") 1; WPrint (str "a"); WPrint (str "b"); WRegister (str "b") (str "C!") 5; WPrint (str "b");
   WRegister (str "c") (str "C!") 10; WPrint (str "a"); WPrint (str "d"); WRegister (str "d") (str "D!") 3; WPrint (str "d")].
Example C66_case : snd (wrun [] ex_warn) =
    [Ok []; Ok [WText (str "B!") 2 1]; Ok []; Ok [WLast (str "A!")]; Ok [WLast (str "B!")]; Throw LException; Ok []; Ok []; Ok []; Ok []; Throw LException; Ok []] /\
  wclose (fst (wrun [] ex_warn)) true = [WHeading; WEnd (str "A!"); WEnd (str "B!")] /\ declared ex_warn (str "b") (str "B!") 2 /\ was_shown ex_warn (str "a") (str "A!").
Proof.
  split; [vm_compute; reflexivity|]. split; [vm_compute; reflexivity|]. split; [exists [], (skipn 1 ex_warn); split; [reflexivity|exact (fun G => G)]|].
  exists 1. split; [exists (firstn 2 ex_warn), (skipn 3 ex_warn); split; [reflexivity|intros [E|[E|[]]]; discriminate E]|]. split; [reflexivity|vm_compute; reflexivity].
Qed.

(** The warnings that the constructor registers have different names, so that it never throws, and are shown at most ten times. *)
Theorem C66_builtin : forall txt id, In id builtin_ids -> (forall o, In o (snd (wrun [] (builtin txt))) -> o = Ok []) /\ declared (builtin txt) id (txt id) 10.
Proof.
  intros txt id Hid. split.
  - assert (E : snd (wrun [] (builtin txt)) = repeat (Ok []) 11) by (vm_compute; reflexivity). rewrite E. intros o Ho. exact (repeat_spec _ _ _ Ho).
  - assert (ND : NoDup builtin_ids).
    { assert (D : (fix nd l := match l with [] => true | x :: l' => negb (existsb (bytes_eqb x) l') && nd l' end) builtin_ids = true) by (vm_compute; reflexivity).
      revert D. generalize builtin_ids. induction l as [|x l IH]; intros D; constructor; apply andb_prop in D as (D1 & D2); [|exact (IH D2)].
      intros Hx. rewrite (proj2 (existsb_exists _ _)) in D1; [discriminate D1|]. exists x. split; [exact Hx|apply bytes_eqb_refl]. }
    unfold builtin. apply in_split in Hid as (a & b & E). rewrite E in *. exists (map (fun i => WRegister i (txt i) 10) a), (map (fun i => WRegister i (txt i) 10) b).
    split; [rewrite map_app; reflexivity|]. rewrite map_map. cbn [id_of]. rewrite map_id. intros G. apply NoDup_remove_2 in ND. apply ND. apply in_or_app. left. exact G.
Qed.
Print Assumptions C66_builtin.
Example C66_builtin_case : In (str "MCPARTICLE_DEPRECATED_GETPARENT") builtin_ids.
Proof. do 8 right. left. reflexivity. Qed.

(** A warning that is to be printed before it is registered can not be registered any more: it is never shown. *)
Theorem C66_late_refuted : exists l id txt max, In (WRegister id txt max) l /\ 0 < max /\ 0 < asked l id /\ wclose (fst (wrun [] l)) true = [] /\
  snd (wrun [] l) = [Ok []; Throw LException; Ok []; Ok []].
Proof.
  exists [WPrint (str "w"); WRegister (str "w") (str "text") 10; WPrint (str "w"); WPrint (str "w")], (str "w"), (str "text"), 10.
  split; [right; left; reflexivity|]. split; [reflexivity|]. repeat split; vm_compute; reflexivity.
Qed.
Print Assumptions C66_late_refuted.
