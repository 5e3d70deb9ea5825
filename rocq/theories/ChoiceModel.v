(** The random numbers behind the architectural elements of a stratum:
    prob_choose and the draws in the loop of Stratum.__init__
    (hyvr/geo/stratum.py l. 6-8 and 46-72), with the options they are made
    from.  No proofs here.

    StrataModel and FullModel take the results of these draws as arguments;
    here they are computed from the numbers of the generators: uniform numbers
    in [0, 1) and standard normal numbers.  NumPy is modelled by its
    documentation: choice with probabilities searches a uniform number in the
    cumulative sums, uniform(a, b) is a + (b-a)*u, normal(m, s) is m + s*n. *)
From Coq Require Import List ZArith Bool Ascii String Reals.
From Verif Require Import Base Num ParseModel ConfigModel DeprecatedModel SurfaceModel StrataModel TroughModel FullModel LinkModel.
Import ListNotations.
Local Open Scope string_scope.

Section Choose.
Context {T : Type} `{Num T}.
Local Open Scope num_scope.

(** [cdf.searchsorted(u, side='right')] with cdf the cumulative sums of [p],
    [acc] being the sum so far. *)
Fixpoint search_right (acc : T) (p : list T) (u : T) : nat :=
  match p with
  | [] => 0
  | x :: r => if u <? acc + x then 0 else S (search_right (acc + x) r u)
  end.
Definition total (l : list T) : T := fold_right nadd n0 l.
(** np.random.choice(types, p=probs/sum(probs)) for [n] types: ValueError if
    there are no types, the lengths differ or a probability is negative; with a
    sum of zero the probabilities are not numbers, which is a ValueError too. *)
Definition prob_choose (n : nat) (probs : list T) (u : T) : res nat :=
  let s := total probs in
  if neqb s n0 then Err ValueError
  else
    let p := map (fun x => x / s) probs in
    if Nat.eqb n 0 || negb (Nat.eqb (List.length p) n) || existsb (fun x => x <? n0) p then Err ValueError
    else Ok (search_right n0 p u).
End Choose.

(** names.index(name) *)
Fixpoint index_of (names : list pystr) (n : pystr) : res nat :=
  match names with
  | [] => Err ValueError
  | m :: r => if pystr_eqb m n then Ok 0 else let* i := index_of r n in Ok (S i)
  end.

(** Options of a stratum: the names of its types, ae_prob, ae_z_mean, avul. *)
Record stratum_options := mkOptions {
  so_names : list pystr; so_probs : list R; so_means : list R; so_avul : R * R }.

(** The random numbers of one round of the loop. *)
Record raw_draw := mkRaw {
  rw_normal : R; rw_u : R; rw_avul : R; rw_next : R; rw_field : list R; rw_objects : object_draws }.

Local Open Scope R_scope.
(** np.random.normal(mean, scale): ValueError for a negative scale. *)
Definition normal (mean scale n : R) : res R := if Rltb scale 0 then Err ValueError else Ok (mean + scale * n).

(** l. 53-72: the draws of one round; [curr] is the number of the current type. *)
Definition draw_round (so : stratum_options) (avul_prob : R) (curr : nat) (r : raw_draw) : res full_draw :=
  let* name := choose (so_names so) curr in
  let* num := index_of (so_names so) name in
  let* mean := pyget (so_means so) (Z.of_nat num) in
  let* height := normal mean (mean * (1 / 10)) (rw_normal r) in
  (* drawn only if there is an avulsion *)
  let avul := if Rleb (rw_u r) avul_prob then fst (so_avul so) + (snd (so_avul so) - fst (so_avul so)) * rw_avul r else 0 in
  let* next := prob_choose (List.length (so_names so)) (so_probs so) (rw_next r) in
  Ok (mkFD height (rw_u r) avul next (rw_field r) (rw_objects r)).

(** All rounds.  Where a draw raises an exception the list ends: a run that needs
    this draw fails. *)
Fixpoint draw_rounds (so : stratum_options) (avul_prob : R) (curr : nat) (l : list raw_draw) : list full_draw :=
  match l with
  | [] => []
  | r :: l => match draw_round so avul_prob curr r with
              | Ok d => d :: draw_rounds so avul_prob (fd_next d) l
              | Err _ => []
              end
  end.

(** The random numbers of a stratum: the random field of its bottom, the number
    for its first type (l. 49), the rounds. *)
Record raw_stratum := mkRawS { rs_field : list R; rs_first : R; rs_rounds : list raw_draw }.
Definition draw_stratum (so : stratum_options) (avul_prob : R) (r : raw_stratum) : res full_stratum_draws :=
  let* first := prob_choose (List.length (so_names so)) (so_probs so) (rs_first r) in
  Ok (mkFSD (rs_field r) first (draw_rounds so avul_prob first (rs_rounds r))).

Section Options.
Context {F : Type} (fin : F -> option R).
Notation value := (val (atom F)).
Definition real_list (v : value) : res (list R) := let* l := items v in mapM (real fin) l.
Definition name_of (v : value) : res pystr := match v with Leaf (AStr n) => Ok n | _ => Err TypeError end.

(** model.py l. 120-121 and the places in stratum.py where the parameters are
    read. *)
Definition link_options (cf : config F) (i : Z) : res stratum_options :=
  let s := cf_strata cf in
  let* t := item s "ae_in_strata" i in
  let* t := items t in
  let* names := mapM name_of t in
  let* p := item s "ae_prob" i in
  let* p := real_list p in
  let* m := item s "ae_z_mean" i in
  let* m := real_list m in
  let* a := item s "avul" i in
  let* a := range2 fin a in
  Ok (mkOptions names p m a).

(** The draws of all strata, from the top. *)
Fixpoint draw_strata (cf : config F) (params : list full_params) (si : nat) (l : list raw_stratum) : res (list full_stratum_draws) :=
  match l with
  | [] => Ok []
  | r :: l =>
      let* so := link_options cf (-1 - Z.of_nat si) in
      let* fp := pyget params (-1 - Z.of_nat si) in
      let* d := draw_stratum so (fp_avul_prob fp) r in
      let* ds := draw_strata cf params (S si) l in
      Ok (d :: ds)
  end.
(** One realization from the random numbers. *)
Definition generate_raw (cf : config F) (lk : linked) (fuel : nat) (l : list raw_stratum) : res (store R * list full_stratum) :=
  let* draws := draw_strata cf (lk_params lk) 0 l in
  generate lk fuel draws.
End Options.
