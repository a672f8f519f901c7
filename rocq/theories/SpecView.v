(** Notions used to state the properties of view trees (P_ApiView.v), independent of the functions of A_View.v. *)
From Verif Require Import Base Dec Flt Json M_Color M_View A_View.

(** all views of a tree, a view before its children *)
Fixpoint preorder (v : aview) : list aview := match v with VNode _ ch => v :: flat_map preorder ch end.
Definition nodes (v : aview) : list vattrs := map vnode (preorder v).
Definition ids (v : aview) : list str := map vid (preorder v).
Definition fids (f : list aview) : list str := flat_map ids f.

(** a position is the list of child numbers on the way from the root *)
Fixpoint subtree (p : list nat) (v : aview) : option aview :=
  match p with
  | [] => Some v
  | i :: q => match nth_error (vchildren v) i with Some c => subtree q c | None => None end
  end.
Fixpoint set_nth {A} (i : nat) (x : A) (l : list A) : list A :=
  match l, i with
  | [], _ => []
  | _ :: r, O => x :: r
  | y :: r, S j => y :: set_nth j x r
  end.
Fixpoint replace_at (p : list nat) (w v : aview) : aview :=
  match p with
  | [] => w
  | i :: q => match nth_error (vchildren v) i with
              | Some c => VNode (vnode v) (set_nth i (replace_at q w c) (vchildren v))
              | None => v
              end
  end.
(** document order of positions: an ancestor comes first *)
Fixpoint before (p q : list nat) : Prop :=
  match p, q with
  | _, [] => False
  | [], _ :: _ => True
  | i :: p', j :: q' => (i < j)%nat \/ (i = j /\ before p' q')
  end.


(** the raw type number of a view type, see from_view and the Sketchware documentation it cites *)
Definition raw_type_of (t : view_type) : option N :=
  match t with
  | VLinearLayout _ _ => Some 0
  | VScrollView LoHorizontal _ => Some 2
  | VScrollView LoVertical _ => Some 12
  | VScrollView LoUnspecified _ => None
  | VButton _ _ _ _ => Some 3
  | VTextView _ _ _ _ _ _ _ => Some 4
  | VEditText _ _ _ _ _ _ _ _ _ _ _ => Some 5
  | VImageView _ _ => Some 6
  | VWebView => Some 7
  | VProgressBar _ _ _ _ => Some 8
  | VListView _ _ => Some 9
  | VSpinner _ => Some 10
  | VCheckBox _ _ _ _ _ _ => Some 11
  | VSwitch _ _ _ _ _ _ => Some 13
  | VSeekBar _ _ => Some 14
  | VCalendarView _ => Some 15
  | VFab _ => Some 16
  | VAdView _ => Some 17
  | VMapView => Some 18
  end.
(** the raw view and the exposed [view] value belong to the same type *)
Definition agrees (n : vattrs) : Prop :=
  match vn_view n with
  | inl t => raw_type_of t = Some (av_type (vn_raw n))
  | inr (UnknownViewType ty i) => ty = av_type (vn_raw n) /\ i = vn_id n /\ (ty = 1 \/ 18 < ty)
  | inr (ResNameNotPresent i) => i = vn_id n /\ (av_type (vn_raw n) = 6 \/ av_type (vn_raw n) = 16) /\
                                 ic_res_name (av_image (vn_raw n)) = None
  end.
(** the type number a parsed view hands to its children as their parent type *)
Definition seen_type (b : android_view) : N :=
  let ty := av_type b in
  if ty =? 12 then 2
  else if (13 <=? ty) && (ty <=? 18) && negb ((ty =? 16) && match ic_res_name (av_image b) with None => true | Some _ => false end)
  then ty - 1 else ty.

(** ** Views that come back *)
(** the attributes exposed by every view *)
Definition same_attrs (a b : vattrs) : Prop :=
  vn_id b = vn_id a /\ vn_background_color b = vn_background_color a /\ vn_height b = vn_height a /\ vn_width b = vn_width a /\
  vn_padding b = vn_padding a /\ vn_margin b = vn_margin a /\ vn_weight b = vn_weight a /\ vn_weight_sum b = vn_weight_sum a /\
  vn_layout_gravity b = vn_layout_gravity a.
(** the attributes that are only reachable through [raw] *)
Definition same_hidden (a b : vattrs) : Prop :=
  av_ad_unit_id (vn_raw b) = av_ad_unit_id (vn_raw a) /\ av_alpha (vn_raw b) = av_alpha (vn_raw a) /\ av_choice_mode (vn_raw b) = av_choice_mode (vn_raw a) /\
  av_clickable (vn_raw b) = av_clickable (vn_raw a) /\ av_enabled (vn_raw b) = av_enabled (vn_raw a) /\ av_index (vn_raw b) = av_index (vn_raw a) /\
  av_pre_id (vn_raw b) = av_pre_id (vn_raw a) /\ av_pre_index (vn_raw b) = av_pre_index (vn_raw a) /\ av_pre_parent (vn_raw b) = av_pre_parent (vn_raw a) /\
  av_pre_parent_type (vn_raw b) = av_pre_parent_type (vn_raw a) /\ av_scale_x (vn_raw b) = av_scale_x (vn_raw a) /\ av_scale_y (vn_raw b) = av_scale_y (vn_raw a) /\
  av_translation_x (vn_raw b) = av_translation_x (vn_raw a) /\ av_translation_y (vn_raw b) = av_translation_y (vn_raw a) /\ av_type (vn_raw b) = av_type (vn_raw a) /\ ic_rotate (av_image (vn_raw b)) = ic_rotate (av_image (vn_raw a)).
(** two trees of the same shape whose views are related *)
Inductive same_tree (R : vattrs -> vattrs -> Prop) : aview -> aview -> Prop :=
| Same n m ch ch' : R n m -> Forall2 (same_tree R) ch ch' -> same_tree R (VNode n ch) (VNode m ch').
(** the [view] value comes back when it belongs to the type number of the raw view *)
Definition same_view (n m : vattrs) : Prop := same_attrs n m /\ same_hidden n m /\ (vn_view m = vn_view n <-> agrees n).
Definition same_layout : list aview -> list aview -> Prop := Forall2 (same_tree same_view).
(** distinct ids, none of them the reserved one *)
Definition layout_ok (F : list aview) : Prop := NoDup (fids F) /\ ~ In (lit "root") (fids F).
