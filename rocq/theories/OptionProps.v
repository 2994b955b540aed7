(** C108: the options that are read as Python text. *)
From Coq Require Import Ascii String QArith.
From Verif Require Import Py Json OptionModel OptionSpec OptionProofs.
Local Open Scope list_scope.
Local Open Scope nat_scope.

(** C108.  A supercell shape that is accepted is three integers, those of the three elements
    the value lists; and three elements that are integers to Python are always accepted. *)
Theorem accepted_shape_is_three_integers :
  forall literal_eval text_of v zs,
  parse_supercell_shape literal_eval text_of v = Parsed (Some zs) <->
  exists a b c x y z, lists literal_eval text_of v [a; b; c] /\ zs = [x; y; z] /\
    integer a x /\ integer b y /\ integer c z.
Proof. exact shape_lemma. Qed.
Print Assumptions accepted_shape_is_three_integers.

(** C108.  Only an option that is not given has no shape. *)
Theorem only_no_value_has_no_shape : forall literal_eval text_of v,
  parse_supercell_shape literal_eval text_of v = Parsed None <-> v = VNone.
Proof. exact shape_none. Qed.
Print Assumptions only_no_value_has_no_shape.

(** C108.  The program reads the two options twice, when it parses the command line and when
    it makes the configuration; the second reading changes nothing. *)
Theorem reading_twice_is_reading_once : forall literal_eval text_of s,
  cli_shape literal_eval text_of (Some s) = parse_supercell_shape literal_eval text_of (VText s) /\
  cli_mapping literal_eval (Some s) = parse_mapping literal_eval (VText s).
Proof.
  intros le t s. split; [exact (twice_lemma le t s)|exact (mapping_twice le s)].
Qed.
Print Assumptions reading_twice_is_reading_once.

(** C108.  A shape that is not accepted is reported as a wrong option, but for two cases:
    the text makes [literal_eval] raise something else than a SyntaxError or ValueError; the
    first element that is no integer is infinite. *)
Theorem other_failures_of_a_shape : forall literal_eval text_of v,
  (parse_supercell_shape literal_eval text_of v = Failed EvalError <->
   exists s, v = VText s /\ literal_eval s = Escaped) /\
  (parse_supercell_shape literal_eval text_of v = Failed OverflowError <->
   exists pre post, lists literal_eval text_of v (pre ++ Infinite :: post) /\
     Forall (fun i => exists z, integer i z) pre).
Proof. exact shape_failed_lemma. Qed.
Print Assumptions other_failures_of_a_shape.

(** C108.  A site mapping that is accepted is the dictionary given, or the one the text
    stands for; everything else is reported as a wrong option, but for an exception of
    [literal_eval] as above. *)
Theorem accepted_mapping_is_the_dictionary : forall literal_eval v,
  (forall d, parse_mapping literal_eval v = Parsed (Some d) <->
     v = VDict d \/ exists s, v = VText s /\ literal_eval s = Evaluated (VDict d)) /\
  (parse_mapping literal_eval v = Parsed None <-> v = VNone) /\
  (parse_mapping literal_eval v = Failed EvalError <->
     exists s, v = VText s /\ literal_eval s = Escaped) /\
  parse_mapping literal_eval v <> Failed OverflowError.
Proof. exact mapping_lemma. Qed.
Print Assumptions accepted_mapping_is_the_dictionary.

(** Python's reading of some texts, and nothing else. *)
Definition some_texts (s : string) : evaluated :=
  if String.eqb s "[2, 3, 4]" then Evaluated (VList [Item (JInt 2); Item (JInt 3); Item (JInt 4)])
  else if String.eqb s "2,3,4" then Evaluated (VTuple [Item (JInt 2); Item (JInt 3); Item (JInt 4)])
  else if String.eqb s "[2.7, 3, True]" then Evaluated (VList [Item (JFloat (27 # 10)); Item (JInt 3); Item (JBool true)])
  else if String.eqb s "[2, 1e999, 2]" then Evaluated (VList [Item (JInt 2); Infinite; Item (JInt 2)])
  else if String.eqb s "[0, -1, 4]" then Evaluated (VList [Item (JInt 0); Item (JInt (-1)); Item (JInt 4)])
  else if String.eqb s "{'Na': 'X'}" then Evaluated (VDict [(Item (JStr "Na"), Item (JStr "X"))])
  else Malformed.

(** C108, refuted: a fraction in the shape is refused.  It is cut off. *)
Theorem fraction_in_shape_is_refused_refuted :
  exists literal_eval text_of s q,
    lists literal_eval text_of (VText s) [Item (JFloat q); Item (JInt 3); Item (JBool true)] /\
    ~ (exists z, q == inject_Z z)%Q /\
    cli_shape literal_eval text_of (Some s) = Parsed (Some [2; 3; 1]%Z).
Proof.
  exists some_texts, (fun _ => ""%string), "[2.7, 3, True]"%string, (27 # 10).
  split; [by apply lists_list_text|]. split; [|reflexivity].
  intros (z & H). unfold Qeq in H. cbn in H. lia.
Qed.
Print Assumptions fraction_in_shape_is_refused_refuted.

(** C108, refuted: a value that is not accepted is always reported as a wrong option. *)
Theorem wrong_shape_is_reported_refuted :
  exists literal_eval text_of s,
    cli_shape literal_eval text_of (Some s) = Failed OverflowError.
Proof. by exists some_texts, (fun _ => ""%string), "[2, 1e999, 2]"%string. Qed.
Print Assumptions wrong_shape_is_reported_refuted.

(** C108, refuted: a shape that is accepted is positive. *)
Theorem accepted_shape_is_positive_refuted :
  exists literal_eval text_of s zs,
    cli_shape literal_eval text_of (Some s) = Parsed (Some zs) /\ ~ Forall (fun z => (0 < z)%Z) zs.
Proof.
  exists some_texts, (fun _ => ""%string), "[0, -1, 4]"%string, [0; -1; 4]%Z. split; [reflexivity|].
  intros H. apply Forall_cons in H as [H _]. lia.
Qed.
Print Assumptions accepted_shape_is_positive_refuted.

(** Not vacuous: the texts a user writes; leading zeros are no Python, but pieces. *)
Example option_example :
  cli_shape some_texts (fun _ => ""%string) (Some "[2, 3, 4]"%string) = Parsed (Some [2; 3; 4]%Z) /\
  cli_shape some_texts (fun _ => ""%string) (Some "2,3,4"%string) = Parsed (Some [2; 3; 4]%Z) /\
  cli_shape some_texts (fun _ => ""%string) (Some "02, 03 ,,04"%string) = Parsed (Some [2; 3; 4]%Z) /\
  cli_shape some_texts (fun _ => ""%string) (Some "2 3 4"%string) = Failed ArgumentTypeError /\
  cli_shape some_texts (fun _ => ""%string) (Some "{'Na': 'X'}"%string) = Failed ArgumentTypeError /\
  cli_mapping some_texts (Some "{'Na': 'X'}"%string) = Parsed (Some [(Item (JStr "Na"), Item (JStr "X"))]) /\
  cli_mapping some_texts (Some "[2, 3, 4]"%string) = Failed ArgumentTypeError.
Proof. by vm_compute. Qed.
