(** Model of the generation of strata, architectural elements and sheets:
    hyvr/geo/model.py generate_model (l. 81-149), hyvr/geo/stratum.py,
    hyvr/geo/ae_realization.py (l. 47-108, 157-169) and
    hyvr/geo/sheet_ae.py generate_objects (l. 48-102).  No proofs here.

    Random draws are arguments.  Of the objects in trough and channel elements
    only the vertical extent matters here; it is taken from the draws. *)
From Coq Require Import List ZArith Bool Ascii String.
From Verif Require Import Base Num ParseModel ConfigModel SurfaceModel.
Import ListNotations.
Local Open Scope num_scope.

Section Strata.
Context {T : Type} `{Num T}.

Definition neqb (x y : T) : bool := (x <=? y) && (y <=? x).

(** ** Element types *)
Inductive geometry :=
  | GSheet (lens_thickness : T) (size_ztrend : option (T * T))
  | GObjects.
(** Background values of a section; [None] is -1 for the facies and NaN for
    the angles. *)
Record background := mkBg { bg_facies : option Z; bg_azim : option T; bg_dip : option T }.
Record ae_type := mkType { t_contact : contact T; t_geometry : geometry; t_bg : background }.

(** ** Objects and elements *)
Record object := mkObject { ob_zmin : T; ob_zmax : T; ob_surfaces : option (nat * nat) (* bottom, top *) }.

Record ae := mkAE {
  ae_bottom : nat; ae_top : nat;
  ae_zmin : T; ae_zmax : T;
  ae_objects : list object;
  (* values of the bottom and top surface of every sheet, copied by
     create_object_arrays *)
  ae_copies : list (list T * list T);
  ae_bg_facies : Z; ae_bg_azim : option T; ae_bg_dip : option T;
  ae_kind : nat }.

(** _add_object (ae_realization.py l. 157-169) *)
Definition add_object (o : object) (a : list object * T * T) : list object * T * T :=
  let '(l, lo, hi) := a in
  ((l ++ [o])%list, (if ob_zmin o <? lo then ob_zmin o else lo), (if hi <? ob_zmax o then ob_zmax o else hi)).

(** [np.interp(x, [a, b], [fa, fb])] *)
Definition interp2 (x a b fa fb : T) : T :=
  if x <=? a then fa else if b <=? x then fb else fa + (fb - fa) * ((x - a) / (b - a)).

(** sheet_ae.py l. 62-71 *)
Definition sheet_thickness (g : grid T) (lens : T) (trend : option (T * T)) (lo hi : T) : T :=
  if neqb lens (n0 - n1) then hi - lo
  else match trend with
       | Some (f0, f1) => lens * interp2 ((lo + hi) / (n1 + n1)) (g_z0 g) (g_zmax g) f0 f1
       | None => lens
       end.

(** sheet_ae.py l. 73-102: the loop; [bottom] is the bottom surface of the
    element.  self.zmin and self.zmax change with every added object. *)
Fixpoint sheet_loop (fuel : nat) (ncol : nat) (st : store T) (bottom top : nat) (thickness zbottom : T)
  (a : list object * T * T) : res (store T * (list object * T * T)) :=
  match fuel with
  | O => Err OutOfFuel
  | S fuel =>
      let '(_, lo, _) := a in
      if lo <? zbottom then
        let* s := new_surface ncol (flat_contact zbottom) [] in
        let (st, b) := alloc st s in
        let* st := use_lower st b top in
        let* st := use_higher st top bottom in
        let* sb := getS st b in
        let* sp := getS st top in
        sheet_loop fuel ncol st bottom b thickness (zbottom - thickness)
          (add_object (mkObject (zmin sb) (zmax sp) (Some (b, top))) a)
      else
        let* sb := getS st bottom in
        let* sp := getS st top in
        Ok (st, add_object (mkObject (zmin sb) (zmax sp) (Some (bottom, top))) a)
  end.

(** create_object_arrays (sheet_ae.py l. 32-45): the values at this moment. *)
Definition copy_object (st : store T) (o : object) : res (list T * list T) :=
  match ob_surfaces o with
  | Some (b, t) => let* sb := getS st b in let* sp := getS st t in Ok (vals sb, vals sp)
  | None => Ok ([], [])
  end.

(** Background values (ae_realization.py l. 88-100): those of the section, else
    those of the stratum. *)
Record stratum_bg := mkSbg { s_facies : Z; s_azim : option T; s_dip : option T }.
Definition pick {A} (own other : option A) : option A := match own with Some _ => own | None => other end.

(** AERealization.__init__ (l. 73-108).  [objs] are the vertical extents of
    the objects of a trough or channel element. *)
Definition new_ae (g : grid T) (sheet_fuel : nat) (st : store T) (ty : ae_type) (kind : nat) (sbg : stratum_bg)
  (bottom top : nat) (objs : list (T * T)) : res (store T * ae) :=
  let* sb := getS st bottom in
  let* sp := getS st top in
  let lo := zmin sb in
  let hi := zmax sp in
  let* (st, (l, lo, hi)) :=
    match t_geometry ty with
    | GSheet lens trend =>
        let thickness := sheet_thickness g lens trend lo hi in
        sheet_loop sheet_fuel (columns g) st bottom top thickness (hi - thickness) ([], lo, hi)
    | GObjects => Ok (st, fold_left (fun a o => add_object (mkObject (fst o) (snd o) None) a) objs ([], lo, hi))
    end in
  let* copies := mapM (copy_object st) l in
  let bg := t_bg ty in
  Ok (st, mkAE bottom top lo hi l copies
            (match bg_facies bg with Some f => f | None => s_facies sbg end)
            (pick (bg_azim bg) (s_azim sbg)) (pick (bg_dip bg) (s_dip sbg)) kind).

(** ** Stratum (stratum.py l. 12-113) *)

(** The draws of one round of the loop: the thickness (normal), the uniform
    number compared with avul_prob, the avulsion depth (uniform), the next
    type, the random field of its contact surface, the objects. *)
Record draw := mkDraw {
  d_height : T; d_u : T; d_avul : T; d_next : nat; d_field : list T; d_objs : list (T * T) }.

Record stratum_params := mkSP { sp_types : list ae_type; sp_avul_prob : T; sp_bg : stratum_bg }.
Record stratum := mkStratum {
  s_bottom : nat; s_top : nat; s_zmin : T; s_zmax : T; s_aes : list ae }.

Definition choose {A} (l : list A) (k : nat) : res A :=
  match nth_error l k with Some a => Ok a | None => Err ValueError end.

Definition set_z (cm : contact T) (z : T) : contact T := mkContact (cm_mode cm) (Some z) (cm_random cm).

(** l. 57-66: the depth after the current element. *)
Definition next_depth (avul_prob znow : T) (d : draw) : T :=
  znow - (d_height d + (if d_u d <=? avul_prob then n0 - d_avul d else n0)).

(** The while loop, l. 51-107.  [bot] is the bottom surface of the stratum,
    [top] the top surface of the current element. *)
Fixpoint stratum_loop (g : grid T) (sheet_fuel : nat) (sp : stratum_params) (bot : nat)
  (draws : list draw) (st : store T) (top : nat) (curr : nat) (znow : T)
  (lo hi : T) (aes : list ae) : res (store T * (T * T * list ae)) :=
  let* sbot := getS st bot in
  if znow <=? zmean sbot then Ok (st, (lo, hi, aes))
  else
    match draws with
    | [] => Err OutOfFuel
    | d :: draws =>
        let* ty := choose (sp_types sp) curr in
        let znow := next_depth (sp_avul_prob sp) znow d in
        let* next := choose (sp_types sp) (d_next d) in
        let* (znow, st, ae_bot) :=
          (if znow <=? zmean sbot then Ok (zmean sbot, st, bot)
           else let* s := new_surface (columns g) (set_z (t_contact next) znow) (d_field d) in
                let (st, b) := alloc st s in Ok (znow, st, b)) in
        let* st := use_lower st ae_bot top in
        let* st := use_higher st ae_bot bot in
        let* (st, e) := new_ae g sheet_fuel st ty curr (sp_bg sp) ae_bot top (d_objs d) in
        let lo := if ae_zmin e <? lo then ae_zmin e else lo in
        let hi := if hi <? ae_zmax e then ae_zmax e else hi in
        stratum_loop g sheet_fuel sp bot draws st ae_bot (d_next d) znow lo hi (aes ++ [e])%list
    end.

Definition new_stratum (g : grid T) (sheet_fuel : nat) (sp : stratum_params) (first : nat) (draws : list draw)
  (st : store T) (bottom top : nat) : res (store T * stratum) :=
  let* sb := getS st bottom in
  let* stp := getS st top in
  let* (st, (lo, hi, aes)) :=
    stratum_loop g sheet_fuel sp bottom draws st top first (zmean stp) (zmin sb) (zmax stp) [] in
  Ok (st, mkStratum bottom top lo hi aes).

(** ** generate_model (model.py l. 109-138)

    [contacts] and [params] are in the order of the ini file (lowest stratum
    first) and are read from the end. *)
Record stratum_draws := mkSD { sd_field : list T; sd_first : nat; sd_draws : list draw }.

Fixpoint model_loop (g : grid T) (sheet_fuel : nat) (contacts : list (contact T)) (params : list stratum_params)
  (n : nat) (draws : list stratum_draws) (si : nat) (st : store T) (top : nat) (strata : list stratum)
  : res (store T * list stratum) :=
  match draws with
  | [] => if Nat.eqb si n then Ok (st, strata) else Err OutOfModel
  | sd :: draws =>
      let* s := (if Nat.eqb (S si) n then new_surface (columns g) (flat_contact (g_z0 g)) []
                 else let* cm := pyget contacts (-1 - Z.of_nat si) in new_surface (columns g) cm (sd_field sd)) in
      let (st, bottom) := alloc st s in
      let* st := use_lower st bottom top in
      let* sp := pyget params (-1 - Z.of_nat si) in
      let* (st, str) := new_stratum g sheet_fuel sp (sd_first sd) (sd_draws sd) st bottom top in
      model_loop g sheet_fuel contacts params n draws (S si) st bottom (strata ++ [str])%list
  end.

Definition generate_model (g : grid T) (sheet_fuel : nat) (contacts : list (contact T)) (params : list stratum_params)
  (draws : list stratum_draws) : res (store T * list stratum) :=
  let* s := new_surface (columns g) (flat_contact (g_lz g)) [] in
  let (st, top) := alloc [] s in
  model_loop g sheet_fuel contacts params (List.length params) draws 0 st top [].

End Strata.
Arguments ae T : clear implicits.
Arguments object T : clear implicits.
Arguments stratum T : clear implicits.
Arguments stratum_params T : clear implicits.
Arguments stratum_draws T : clear implicits.
Arguments draw T : clear implicits.
Arguments ae_type T : clear implicits.
