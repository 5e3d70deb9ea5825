(** Model of hyvr/postprocess/output.py.  No proofs here.

    Files are not modelled; what is passed to flopy is.  The formats mat, py,
    npz, h5 store model.data as it is. *)
From Coq Require Import List ZArith Bool Ascii String Reals.
From Verif Require Import Base Num ParseModel SurfaceModel ArrayModel TensorModel CurveModel.
Import ListNotations.
Local Open Scope R_scope.

(** ** create_outputs (l. 35-78) *)

(** The keys of output_desc, l. 57-66. *)
Definition known_formats : list pystr :=
  map S_ ["mat"; "py"; "npz"; "h5"; "vtr"; "mf"; "mf6"; "hgs"]%string.
Definition known (f : pystr) : bool := existsb (pystr_eqb f) known_formats.

(** The library a format needs: l. 135, 156, 177, 246. *)
Definition library (f : pystr) : option pystr :=
  if pystr_eqb f (S_ "h5") then Some (S_ "h5py")
  else if pystr_eqb f (S_ "vtr") then Some (S_ "pyevtk")
  else if pystr_eqb f (S_ "mf") || pystr_eqb f (S_ "mf6") then Some (S_ "flopy")
  else None.

(** What happens: a format is written, a warning is issued, the message
    "Saved ... output to ..." is printed. *)
Inductive event := Written (f : pystr) | Warned (f : pystr) | Said_saved (f : pystr).

(** [installed] tells which libraries can be imported; [write f] is the result
    of the output function of [f] once its library is imported. *)
Definition output_function (installed : pystr -> bool) (write : pystr -> res unit) (f : pystr) : res unit :=
  match library f with
  | Some l => if installed l then write f else Err ImportError
  | None => write f
  end.
(** l. 68-78: events so far and result *)
Fixpoint create_outputs (installed : pystr -> bool) (write : pystr -> res unit) (formats : list pystr) : list event * res unit :=
  match formats with
  | [] => ([], Ok tt)
  | f :: r =>
      if known f then
        match output_function installed write f with
        | Ok _ => let '(l, x) := create_outputs installed write r in (Written f :: Said_saved f :: l, x)
        | Err ImportError => let '(l, x) := create_outputs installed write r in (Warned f :: Said_saved f :: l, x)
        | Err e => ([], Err e)
        end
      else ([], Err ValueError)
  end.

(** ** Data of the model *)

(** The flowtrans section: all options are optional (options.py l. 164-171). *)
Record flowtrans := mkFlow { f_hin : option (list R); f_hout : option (list R); f_gradh : option R; f_qin : option R }.
(** model.data; the hydraulic arrays exist if hydraulics are generated. *)
Record hydraulic_data := mkHData { o_k : array R; o_anirat : array R; o_poros : array R; o_tensors : array tensor }.
Record model_data := mkMData { o_azim : array R; o_dip : array R; o_hydraulic : option hydraulic_data }.

Definition nx (g : grid R) : nat := List.length (g_x g).
Definition ny (g : grid R) : nat := List.length (g_y g).
Definition nz (g : grid R) : nat := List.length (g_z g).

(** Arrays indexed by layer, row, column. *)
Definition layered A := nat -> nat -> nat -> A.

(** x[0] of an option *)
Definition first_of (o : option (list R)) : res R := match o with None => Err TypeError | Some l => pyget l 0 end.

(** ** to_modflow (l. 165-228): what is passed to flopy *)
Record mf_input := mkMF {
  mf_nlay : nat; mf_nrow : nat; mf_ncol : nat; mf_delr : R; mf_delc : R; mf_top : R; mf_botm : list R;
  mf_ibound : layered Z; mf_strt : layered R; mf_hk : layered R; mf_vka : layered R }.
(** a[:, :, 0] = v; a[:, :, -1] = w for a last axis of length n *)
Definition set_ends {A} (n : nat) (v w : A) (a : layered A) : layered A := fun l r c =>
  if Nat.eqb c (n - 1) then w else if Nat.eqb c 0 then v else a l r c.
(** Assignments to an axis of length 0 raise IndexError. *)
Definition to_modflow (g : grid R) (ft : flowtrans) (d : model_data) : res mf_input :=
  let ztop := g_z0 g + g_lz g in
  let zbot := g_z0 g in
  let botm := map (fun i => linspace ztop zbot (nz g + 1) i) (seq 1 (nz g)) in
  if Nat.eqb (ny g) 0 then Err IndexError else
  let ibound := set_ends (ny g) (-1)%Z (-1)%Z (fun _ _ _ => 1%Z) in
  let* hin := first_of (f_hin ft) in
  let* hout := first_of (f_hout ft) in
  let strt := set_ends (ny g) hin hout (fun _ _ _ => 1) in
  match o_hydraulic d with
  | None => Err KeyError
  | Some h =>
      (* np.transpose(a, (2, 0, 1)) *)
      let hk := fun l r c => o_k h (r, c, l) in
      let vka := fun l r c => o_anirat h (r, c, l) in
      Ok (mkMF (nz g) (nx g) (ny g) (g_dx g) (g_dy g) ztop botm ibound strt hk vka)
  end.

(** ** to_mf6 (l. 233-414) *)
Record mf6_input := mkMF6 {
  m6_nlay : nat; m6_nrow : nat; m6_ncol : nat; m6_delr : R; m6_delc : R; m6_top : R; m6_botm : list R;
  m6_k : layered R; m6_k33 : layered R; m6_angle1 : layered R; m6_angle2 : layered R; m6_angle3 : layered R;
  m6_chd : option (list ((nat * nat * nat) * R)); m6_strt : layered R; m6_wel : list ((nat * nat * nat) * R) }.

(** All pairs of layer and row in the order of the loops. *)
Definition faces {A} (g : grid R) (f : nat -> nat -> list A) : list A :=
  flat_map (fun l => flat_map (fun r => f l r) (seq 0 (ny g))) (seq 0 (nz g)).

(** l. 327-360: heads at inlet and outlet and the records of the constant-head
    package ([None]: no package).  In l. 332-334 the name flowtrans is not
    defined. *)
Definition heads (g : grid R) (ft : flowtrans) : res (R * R * option (list ((nat * nat * nat) * R))) :=
  match f_hin ft with
  | Some _ =>
      let* hin := first_of (f_hin ft) in
      let* hout := first_of (f_hout ft) in
      Ok (hin, hout, Some (faces g (fun l r => [((l, r, 0), hin); ((l, r, nx g - 1), hout)])%nat))
  | None => Err NameError
  end.

(** [around3] is np.around(., decimals=3). *)
Definition to_mf6 (around3 : R -> R) (g : grid R) (ft : flowtrans) (d : model_data) : res mf6_input :=
  match o_hydraulic d with
  | None => Err KeyError
  | Some h =>
      (* np.transpose(a, (2, 1, 0)) *)
      let t {A} (a : array A) : layered A := fun l r c => a (c, r, l) in
      let ztop := g_z0 g + g_lz g in
      let zbot := g_z0 g in
      (* np.arange(ztop, zbot-dz, -dz)[1:] *)
      let n := Z.to_nat (nceil ((zbot - g_dz g - ztop) / - g_dz g)) in
      let botm := map (fun i => around3 (ztop + INR i * - g_dz g)) (seq 1 (n - 1)) in
      let* hh := heads g ft in
      let '(hin, hout, chd) := hh in
      let strt := fun (l r c : nat) => 1 * linspace hin hout (nx g) c in
      let q := match f_qin ft with Some q => q | None => / 100 end in
      let wel := faces g (fun l r => [((l, r, 0)%nat, q)]) in
      Ok (mkMF6 (nz g) (ny g) (nx g) (g_dy g) (g_dx g) ztop botm
                (t (o_k h)) (fun l r c => t (o_k h) l r c / t (o_anirat h) l r c) (t (o_azim d)) (t (o_dip d)) (fun _ _ _ => 0)
                chd strt wel)
  end.

(** ** to_hgs (l. 417-449): the rows of ktensors.txt and porosity.txt *)
Definition flatten {A} (s : shape) (a : array A) : list A := map a (cells s).
Definition grid_shape (g : grid R) : shape := (nx g, ny g, nz g).
(** np.column_stack without the first column of identifiers: row i has the i-th
    element of every column. *)
Definition column_stack (n : nat) (cols : list (list R)) : list (list R) :=
  map (fun i => map (fun col => nth i col 0) cols) (seq 0 n).
Definition to_hgs (g : grid R) (d : model_data) : res (list (nat * list R) * list (nat * R)) :=
  match o_hydraulic d with
  | None => Err KeyError
  | Some h =>
      let s := grid_shape g in
      let entry i j := flatten s (fun c => o_tensors h c i j) in
      let n := List.length (entry 1 2)%nat in
      let uid := seq 1 n in
      Ok (combine uid (column_stack n [entry 0 0; entry 1 1; entry 2 2; entry 0 1; entry 0 2; entry 1 2])%nat,
          combine uid (flatten s (o_poros h)))
  end.
