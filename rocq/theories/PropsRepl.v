(** C43 - C47: completion, the line taken from the preprocessor, and the include options. *)
From Coq Require Import ZArith List Bool Ascii String Lia.
From Verif Require Import CInt ListC ListCSpec Repl SpecRepl ReplFacts.
Import ListNotations.
Local Open Scope Z_scope.
Local Open Scope list_scope.
Notation length := List.length.

Definition chars (s : string) : text := list_ascii_of_string s.

(** C43.  Whatever the timing of writer and reader and the memory content, the parent gets exactly the strings sent, if there are
    fewer than 2^31 and each has less than 4096 bytes; none, as NULL or as an empty array, arrives as NULL. *)
Theorem C43_pipe l pieces sched garbage :
  (forall s, In s l -> (length s < Z.to_nat 4096)%nat) -> Z.of_nat (length l) < 2 ^ 31 ->
  arrives (send_matches (Some l)) pieces ->
  recieve_matches sched garbage pieces = match l with [] => None | _ => Some (map (fun s => s ++ [0]) l) end.
Proof. exact (pipe_ok l pieces sched garbage). Qed.
Print Assumptions C43_pipe.
Theorem C43_null pieces sched garbage : arrives (send_matches None) pieces -> recieve_matches sched garbage pieces = None.
Proof. exact (pipe_null pieces sched garbage). Qed.
Print Assumptions C43_null.

(** A longer string may arrive in two pieces, and its end is then lost: the read is not repeated. *)
Definition long_string : list Z := repeat 97 (Z.to_nat 5000).
Theorem C43_long_refuted : exists l pieces sched garbage, (forall s, In s l -> ~ In 0 s) /\
  arrives (send_matches (Some l)) pieces /\ recieve_matches sched garbage pieces <> Some (map (fun s => s ++ [0]) l).
Proof.
  exists [long_string], [size_bytes 1; size_bytes 5001; firstn (Z.to_nat 4096) (long_string ++ [0]); skipn (Z.to_nat 4096) (long_string ++ [0])],
    (fun _ => O), (fun _ => repeat 0 (Z.to_nat 6000)).
  split.
  { intros s [<-|[]] I. apply repeat_spec in I. discriminate I. }
  split.
  - unfold send_matches. cbn [flat_map app List.length].
    replace (Z.of_nat (length long_string) + 1) with 5001 by (unfold long_string; rewrite repeat_length; reflexivity).
    apply arrives_whole; [vm_compute; lia|]. apply arrives_whole; [vm_compute; lia|].
    set (a := firstn (Z.to_nat 4096) (long_string ++ [0])). set (b := skipn (Z.to_nat 4096) (long_string ++ [0])).
    refine (arrives_cut (long_string ++ [0]) [] [a; b] [] _ _ _ arrives_nil); [|transitivity (a ++ b); [change (a ++ (b ++ []) = a ++ b); now rewrite (List.app_nil_r b)|apply firstn_skipn]|].
    + unfold long_string. rewrite app_length, repeat_length. cbn [List.length]. lia.
    + assert (La : length a = Z.to_nat 4096) by (unfold a; rewrite firstn_length, app_length; unfold long_string; rewrite repeat_length; cbn [List.length]; lia).
      assert (Lb : length b = Z.to_nat 905) by (unfold b; rewrite skipn_length, app_length; unfold long_string; rewrite repeat_length; cbn [List.length]; lia).
      intros [E|[E|[]]]; rewrite E in *; cbn in *; lia.
  - intros H. apply (f_equal (fun o => match o with Some (s :: _) => nth 4500 s 0 | _ => 0 end)) in H. vm_compute in H. discriminate H.
Qed.
Print Assumptions C43_long_refuted.

Example C43_example : arrives (send_matches (Some [map (fun c => Z.of_N (N_of_ascii c)) (chars "foo"); []])) (send_matches (Some [map (fun c => Z.of_N (N_of_ascii c)) (chars "foo"); []])).
Proof. repeat (constructor; try (vm_compute; lia)). Qed.

(** C44.  Completion of a word offers the identifiers beginning with it of all the id maps, in order, and leaves the id maps as they are;
    the identifiers must be different nodes. *)
Theorem C44_completion nm h c ctxs include t maps fuel :
  map fst maps = ctxs ++ match include with Some m => [m] | None => [] end ->
  (forall m l, In (m, l) maps -> chain h m l) ->
  NoDup (candidates nm t maps) -> ~ In c (candidates nm t maps) ->
  (forall m l x, In (m, l) maps -> In x (m :: l) -> x <> c /\ ~ In x (candidates nm t maps)) ->
  (forall m l, In (m, l) maps -> (length l <= fuel)%nat) -> (length (candidates nm t maps) <= fuel)%nat ->
  exists h', do_identifier_completion fuel nm h c ctxs include t = Some (offered t (map (str nm) (candidates nm t maps)), h') /\
    forall m l, In (m, l) maps -> chain h' m l.
Proof. exact (completion_ok nm h c ctxs include t maps fuel). Qed.
Print Assumptions C44_completion.

(** When a scope left behind by a break maps the node that another scope maps, completion never ends. *)
Definition two_maps : heap := mkheap (fun x => if x =? 10 then 11 else if x =? 20 then 21 else if x =? 11 then 10 else 20)
  (fun x => if x =? 10 then 11 else if x =? 20 then 21 else if x =? 11 then 10 else 20).
Theorem C44_same_node_refuted : exists nm h c maps t,
  (forall m l, In (m, l) maps -> chain h m l) /\
  (forall m l x, In (m, l) maps -> In x (m :: l) -> x <> c /\ ~ In x (candidates nm t maps)) /\ ~ In c (candidates nm t maps) /\
  forall fuel, do_identifier_completion fuel nm h c (map fst maps) None t = None.
Proof.
  exists (mknames (fun _ => 5) (fun _ => chars "p")), two_maps, 99, [(10, [11]); (20, [21])], (chars "p").
  split; [|split; [|split]].
  - intros m l [[= <- <-]|[[= <- <-]|[]]]; (split; [repeat constructor; cbn; intuition discriminate|vm_compute; auto]).
  - intros m l x [[= <- <-]|[[= <- <-]|[]]] I; cbn in I; intuition (subst; vm_compute in *; intuition discriminate).
  - vm_compute. intuition discriminate.
  - intros [|[|fuel]]; [reflexivity|vm_compute; reflexivity|].
    unfold do_identifier_completion, find_global_identifiers, ctx_loop, match_identifiers_for_idmap. cbn.
    match goal with |- context [create_matches_array _ ?nm ?h ?t ?c] => generalize (eq_refl : nxt h 5 = 5) (eq_refl : nxt h 99 = 5); generalize h; generalize nm end.
    intros nm h H5 H99. unfold create_matches_array, list_for_each. rewrite H99.
    assert (G : forall n, walk n h 5 99 = None) by (induction n as [|n IH]; cbn; [reflexivity|]; now rewrite H5, IH). now rewrite G.
Qed.
Print Assumptions C44_same_node_refuted.

Example C44_example :
  let nm := mknames (fun m => m + 50) (fun i => if i =? 61 then chars "foo" else chars "far") in
  map fst [(10, [11]); (20, [21])] = [10] ++ [20] /\ candidates nm (chars "fo") [(10, [11]); (20, [21])] = [61] /\ candidates nm (chars "f") [(10, [11]); (20, [21])] = [61; 71] /\
  option_map fst (do_identifier_completion 5 nm two_maps 99 [10] (Some 20) (chars "f")) = Some (Some [chars "f"; chars "foo"; chars "far"]) /\
  option_map fst (do_identifier_completion 5 nm two_maps 99 [10] (Some 20) (chars "fo")) = Some (Some [chars "foo"]) /\
  option_map fst (do_identifier_completion 5 nm two_maps 99 [10] (Some 20) (chars "x")) = Some None.
Proof. cbv zeta. repeat split; vm_compute; reflexivity. Qed.

(** C45.  Text with a dot after its first character is split at the last dot. *)
Theorem C45_dot obj prefix : ~ In "."%char prefix -> obj <> [] ->
  split_compound_access_text (obj ++ "."%char :: prefix) = Some (mkaccess (Some obj) (Some (chars ".")) (Some prefix) false).
Proof. exact (split_dot obj prefix). Qed.
Print Assumptions C45_dot.

(** C45.  Text with an arrow but no dot after its first character is always split after the first character, as if the arrow were there. *)
Theorem C45_arrow c rest : ~ In "."%char rest -> (exists a b, rest = a ++ chars "->" ++ b) ->
  split_compound_access_text (c :: rest) = Some (mkaccess (Some [c]) (Some (chars "->")) (Some (skipn 2 rest)) true).
Proof. intros N E. rewrite (split_nodot c rest N). now rewrite (proj2 (strstr_iff rest arrow) E). Qed.
Print Assumptions C45_arrow.
(** So an arrow is only found when the object is one character long. *)
Theorem C45_arrow_right c obj prefix : ~ In "."%char (obj ++ prefix) ->
  (split_compound_access_text (c :: obj ++ chars "->" ++ prefix) = Some (mkaccess (Some (c :: obj)) (Some (chars "->")) (Some prefix) true) <-> obj = []).
Proof.
  intros N. rewrite C45_arrow; [|intros I; apply N; apply in_app_or in I as [I|I]; [apply in_or_app; auto|]; cbn in I; destruct I as [I|[I|I]]; try discriminate I; apply in_or_app; auto|eauto].
  split; [intros [= E _]; auto|]. intros ->. reflexivity.
Qed.
Print Assumptions C45_arrow_right.
(** C45.  Other text is not split; and the check done before agrees with the splitting. *)
Theorem C45_none c rest : ~ In "."%char rest -> ~ (exists a b, rest = a ++ chars "->" ++ b) -> split_compound_access_text (c :: rest) = None.
Proof. intros N E. rewrite (split_nodot c rest N). destruct (strstr rest arrow) eqn:S; [|reflexivity]. apply strstr_iff in S. now destruct E. Qed.
Print Assumptions C45_none.
Theorem C45_compound s : is_compound_access s = true <-> split_compound_access_text s <> None.
Proof. exact (compound_iff_split s). Qed.
Print Assumptions C45_compound.

Example C45_example :
  split_compound_access_text (chars "a->b.c") = Some (mkaccess (Some (chars "a->b")) (Some (chars ".")) (Some (chars "c")) false) /\
  split_compound_access_text (chars "p->mem") = Some (mkaccess (Some (chars "p")) (Some (chars "->")) (Some (chars "mem")) true) /\
  split_compound_access_text (chars "ptr->m") = Some (mkaccess (Some (chars "p")) (Some (chars "->")) (Some (chars "->m")) true) /\
  split_compound_access_text (chars "a.b->c") = Some (mkaccess (Some (chars "a")) (Some (chars ".")) (Some (chars "b->c")) false) /\
  split_compound_access_text (chars "foo") = None /\ is_compound_access (chars ".x") = false.
Proof. repeat split; vm_compute; reflexivity. Qed.

(** C46.  The line taken is the last one, with the newline before it if there is one; the last character, whatever it is, is left out. *)
Theorem C46_last_line before l last fuel : ~ In newline l -> (length (before ++ newline :: l ++ [last]) <= fuel)%nat ->
  run_cpp_on_line fuel (before ++ newline :: l ++ [last]) = Line (newline :: l).
Proof. exact (cpp_line_newline before l last fuel). Qed.
Print Assumptions C46_last_line.
Theorem C46_only_line l last fuel : l <> [] -> ~ In newline l -> (length (l ++ [last]) <= fuel)%nat -> run_cpp_on_line fuel (l ++ [last]) = Line l.
Proof. exact (cpp_line_first l last fuel). Qed.
Print Assumptions C46_only_line.
Theorem C46_short output fuel : (length output < 2)%nat -> (0 < fuel)%nat -> run_cpp_on_line fuel output = Exit1.
Proof. exact (cpp_line_short output fuel). Qed.
Print Assumptions C46_short.

Example C46_example :
  run_cpp_on_line 100 (chars "int f(int);" ++ newline :: chars "f(2);" ++ [newline]) = Line (newline :: chars "f(2);") /\
  run_cpp_on_line 100 (chars "f(2);" ++ [newline]) = Line (chars "f(2);") /\ run_cpp_on_line 100 [newline] = Exit1.
Proof. repeat split; vm_compute; reflexivity. Qed.

(** C47.  The include options are the directories in the order they were added, each after -I, and fill the array exactly. *)
Theorem C47_options ds : (forall d, In d ds -> ~ In NUL d) -> Z.of_nat (length (options ds)) + 1 < 2 ^ 64 ->
  include_dir_opts (fold_left preprocessor_add_include_dir ds None) = Some (map Some (options ds ++ [NUL])).
Proof. exact (include_options ds). Qed.
Print Assumptions C47_options.

Example C47_example : include_dir_opts (fold_left preprocessor_add_include_dir [chars "inc"; chars "/usr/include"] None) =
  Some (map Some (chars " -I inc -I /usr/include" ++ [NUL])).
Proof. vm_compute. reflexivity. Qed.
