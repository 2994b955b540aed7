(** C105: a site-energy model object through any sequence of calls. *)
From Coq Require Import Reals Lra QArith.
From Verif Require Import Py ActiveSiteModel EventModel SiteEnergyModel SiteEnergyProps
  SiteObjectModel SiteObjectSpec SiteObjectProofs.
Local Open Scope nat_scope.

(** What initialising answers is what initialising a model of the same settings answers, and
    if it succeeds the object holds the tables, occupation and evaluator of that model. *)
Theorem initialisation_of_an_object :
  forall text parse_int parse_float Rt (make : result Rt) (o : object Rt) given occ lib,
  let evaluator := match o_runtime o with Some rt => Ok rt | None => make end in
  let answer := o_initialize text parse_int parse_float make o given occ (Some (events lib)) in
  match initialize_state text parse_int parse_float evaluator (o_config o) given occ lib with
  | Ok m => exists o', answer = (o', Ok tt) /\ holds o' m
  | Err x => snd answer = Err x
  end.
Proof. exact @initialize_lemma. Qed.
Print Assumptions initialisation_of_an_object.

(** An object that holds them computes and commits as that model does; computing changes
    nothing. *)
Theorem use_of_an_object :
  forall text parse_int parse_float Rt (make : result Rt) compute_fn apply_fn (o : object Rt) m e occ,
  holds o m ->
  o_compute text parse_int parse_float make compute_fn o occ e
    = (o, se_compute compute_fn (o_config o) m occ e) /\
  match se_apply text parse_int parse_float apply_fn m e occ with
  | Ok m' => exists o', o_apply text parse_int parse_float make apply_fn o e occ = (o', Ok tt) /\
                        holds o' m' /\ o_config o' = o_config o
  | Err x => snd (o_apply text parse_int parse_float make apply_fn o e occ) = Err x
  end.
Proof.
  intros text pi pf Rt make cf af o m e occ H.
  exact (conj (compute_lemma text pi pf make cf o m occ e H) (apply_lemma text pi pf make af o m e occ H)).
Qed.
Print Assumptions use_of_an_object.

(** An object that no simulation has initialised is initialised by its first use, with the
    state of that use. *)
Theorem first_use_initialises :
  forall text parse_int parse_float Rt (make : result Rt) compute_fn c rt m occ e,
  initialize_state text parse_int parse_float (Ok rt) c None occ empty_lib = Ok m ->
  exists o', o_compute text parse_int parse_float make compute_fn (new_object c (Some rt)) occ e
               = (o', se_compute compute_fn c m occ e) /\ holds o' m.
Proof. exact @uninitialised_lemma. Qed.
Print Assumptions first_use_initialises.

(** C105.  Once an object is bound to an active-site order it stays bound to it, whatever is
    called and whatever raises; another order is then refused, and the refusal changes
    nothing. *)
Theorem first_order_stays :
  forall text parse_int parse_float Rt (make : result Rt) compute_fn apply_fn h (o : object Rt) l,
  bound h o ->
  let o' := o_calls text parse_int parse_float make compute_fn apply_fn o l in
  bound h o' /\
  forall h' n occ lib, h' <> h ->
    o_initialize text parse_int parse_float make o' (Some (h', n)) occ lib = (o', Err ValueError) /\
    o_calls text parse_int parse_float make compute_fn apply_fn o
      (l ++ [Initialize (Some (h', n)) occ lib])%list = o'.
Proof.
  intros text pi pf Rt make cf af h o l H.
  pose proof (bound_calls text pi pf make cf af h l o H) as Hb. split; [exact Hb|].
  intros h' n occ lib Hn. pose proof (other_order_lemma text pi pf make h h' n _ occ lib Hb Hn) as Ho.
  split; [exact Ho|]. unfold o_calls in *. rewrite fold_left_app. cbn [fold_left o_call]. by rewrite Ho.
Qed.
Print Assumptions first_order_stays.

(** No call binds an object unless an order is given. *)
Theorem only_an_order_binds :
  forall text parse_int parse_float Rt (make : result Rt) compute_fn apply_fn (o : object Rt) l,
  (forall given occ lib, Initialize given occ lib ∈ l -> given = None) ->
  o_config (o_calls text parse_int parse_float make compute_fn apply_fn o l) = o_config o.
Proof.
  intros text pi pf Rt make cf af o l H. exact (unbound_calls text pi pf make cf af l o H).
Qed.
Print Assumptions only_an_order_binds.

(** C105.  Initialising forgets the history: after any calls, if the object is not bound to
    another order, initialising succeeds whenever it would have succeeded at first, and
    everything but the evaluator is then what it would have been. *)
Theorem initialising_forgets_history :
  forall text parse_int parse_float Rt (make : result Rt) compute_fn apply_fn l (o : object Rt)
         h n occ lib o1,
  let o' := o_calls text parse_int parse_float make compute_fn apply_fn o l in
  free_for h o' ->
  o_initialize text parse_int parse_float make o (Some (h, n)) occ lib = (o1, Ok tt) ->
  exists o2, o_initialize text parse_int parse_float make o' (Some (h, n)) occ lib = (o2, Ok tt) /\
             same_but_evaluator o1 o2.
Proof.
  intros text pi pf Rt make cf af l o h n occ lib o1 o' Hf H.
  exact (again_lemma text pi pf make cf af l o h n occ lib o1 Hf H).
Qed.
Print Assumptions initialising_forgets_history.

(** An order with another number of sites is refused, and the tables, the external
    occupation and the evaluator stay. *)
Theorem wrong_count_keeps_use :
  forall text parse_int parse_float Rt (make : result Rt) (o : object Rt) h n occ lib,
  n <> length occ ->
  let answer := o_initialize text parse_int parse_float make o (Some (h, n)) occ lib in
  snd answer = Err ValueError /\ same_use (fst answer) o.
Proof. exact @wrong_count_lemma. Qed.
Print Assumptions wrong_count_keeps_use.

(** Three sites, the identity mapping; the energy is 1 meV when the third site is occupied. *)
Definition so_third (_ : unit) (a : list ext_value) (_ : list change) (_ : event) (_ : list Z)
  : result R := Ok (match a !! 2 with Some (EInt 0%Z) => 0%R | _ => 1%R end).
Definition so_init := o_initialize x_text x_int x_float (Ok tt).
Definition so_comp := o_compute x_text x_int x_float (Ok tt) so_third.
Definition so_new : object unit := new_object y_cfg None.
Definition so_calls := o_calls x_text x_int x_float (Ok tt) so_third None.

(** C105, refuted: a refused initialisation leaves the object as it was.  An order with a
    wrong number of sites is refused, and then the right order is refused too, which a new
    object accepts. *)
Theorem refused_order_does_not_bind_refuted :
  exists (o : object unit) g1 g2 occ,
    snd (so_init o (Some g1) occ None) = Err ValueError /\
    snd (so_init o (Some g2) occ None) = Ok tt /\
    snd (so_init (fst (so_init o (Some g1) occ None)) (Some g2) occ None) = Err ValueError.
Proof. exists so_new, ("a"%string, 3), ("b"%string, 2), [0; 1]%Z. by repeat split. Qed.
Print Assumptions refused_order_does_not_bind_refuted.

(** C105, refuted: a refused initialisation leaves a simulation that uses the object
    undisturbed.  The second initialisation fails at the event library, after the external
    occupation has been replaced. *)
Theorem refused_initialisation_is_harmless_refuted :
  exists (o : object unit) occ occ' bad e r r',
    snd (so_init o None occ None) = Ok tt /\
    let o1 := fst (so_init o None occ None) in
    snd (so_init o1 None occ' (Some bad)) = Err ValueError /\
    snd (so_comp o1 occ e) = Ok r /\
    snd (so_comp (fst (so_init o1 None occ' (Some bad))) occ e) = Ok r' /\ r <> r'.
Proof.
  exists so_new, [0; 1; 0]%Z, [0; 1; 1]%Z, [Event [0; 5]%Z []], x_e1, (0 * 1)%R, (1 * 1)%R.
  split; [reflexivity|]. cbv zeta. split; [reflexivity|]. split; [reflexivity|].
  split; [reflexivity|]. lra.
Qed.
Print Assumptions refused_initialisation_is_harmless_refuted.

(** A history with a refused order, a first use, a commit and a failing initialisation. *)
Definition so_history : list call :=
  [Initialize (Some ("abc"%string, 3)) [0; 1; 0]%Z (Some [x_e1]);
   Initialize (Some ("abd"%string, 3)) [0; 1; 0]%Z None; Compute [0; 1; 0]%Z x_e1;
   Apply x_e1 [1; 0; 0]%Z; Initialize None [1; 0; 1]%Z (Some [Event [0; 5]%Z []])].
Example history_example :
  let o := so_calls so_new so_history in
  bound "abc" (so_calls so_new [Initialize (Some ("abc"%string, 3)) [0; 1; 0]%Z (Some [x_e1])]) /\
  free_for "abc" o /\ ~ free_for "abd" o /\
  o_external (so_calls so_new (take 4 so_history)) = Some (DInt, [EInt 1; EInt 0; EInt 0]) /\
  o_external o = Some (DInt, [EInt 1; EInt 0; EInt 1]) /\
  snd (so_init so_new (Some ("abc"%string, 3)) [0; 1; 1]%Z (Some [x_e1])) = Ok tt /\
  holds (so_calls so_new (take 4 so_history))
    (Cache (Tables [0; 1; 2]%Z None None) DInt [EInt 1; EInt 0; EInt 0] tt) /\
  initialize_state x_text x_int x_float (Ok tt) y_cfg None [0; 1; 0]%Z empty_lib
    = Ok (Cache (Tables [0; 1; 2]%Z None None) DInt [EInt 0; EInt 1; EInt 0] tt).
Proof.
  split; [reflexivity|]. split; [by right|]. split; [by intros [|]|]. by repeat split.
Qed.
