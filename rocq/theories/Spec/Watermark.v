(** What the mark of the free version may do to a document (C100). *)
From Coq Require Import List NArith ZArith Bool String.
From Verif.Model Require Import Base Numbers SMap Object Equality Watermark.
From Verif.Proof Require Import SMap.
Import ListNotations.
Local Open Scope N_scope.

(** every dictionary that can be reached without references is a map: sorted by key, no key twice *)
Inductive tidy : obj -> Prop :=
| tidy_intro : forall o, (forall m, o = ODict m -> sm_sorted m /\ sm_keys_ok m /\ (forall k v, In (k, v) m -> tidy v)) -> tidy o.

(** [b] is [a] with nothing changed and nothing taken away, but for new entries in its dictionaries down to [depth]: dictionaries
    Resources and Font that have only such entries, and the font of the mark *)
Definition new_dictionaries : list bytes := [str "Resources"; str "Font"].
Fixpoint grown (font : obj) (depth : nat) (a b : obj) : Prop :=
  a = b \/
  match depth, a, b with
  | S k, ODict m, ODict m' =>
      forall key, all_bytes key ->
        match sm_find key m, sm_find key m' with
        | Some v, Some v' => grown font k v v'
        | Some _, None => False
        | None, Some v' => (key = mark_font /\ v' = font) \/ (In key new_dictionaries /\ grown font k (ODict []) v')
        | None, None => True
        end
  | _, _, _ => False
  end.

(** the nodes of the page tree below [kids], the kids of a node before the node *)
Definition kids_of (f : N -> N -> obj) (m : list (bytes * obj)) (l : list obj) : Prop :=
  match sm_find (str "Kids") m with
  | None => l = []
  | Some v => v = OArr l \/ exists n g, v = ORef n g /\ f n g = OArr l
  end.
Inductive page_nodes (f : N -> N -> obj) : list obj -> list (N * N) -> Prop :=
| pn_nil : page_nodes f [] []
| pn_cons : forall n g m l below rest others, f n g = ODict m -> kids_of f m l -> page_nodes f l below -> page_nodes f rest others ->
    page_nodes f (ORef n g :: rest) (below ++ (n, g) :: others).
(** the kids of the root of the page tree *)
Definition root_kids (f : N -> N -> obj) (trailer : list (bytes * obj)) (kids : list obj) : Prop :=
  exists r root p pages k,
    sm_find (str "Root") trailer = Some r /\ (r = ODict root \/ exists n g, r = ORef n g /\ f n g = ODict root) /\
    sm_find (str "Pages") root = Some p /\ (p = ODict pages \/ exists n g, p = ORef n g /\ f n g = ODict pages) /\
    sm_find (str "Kids") pages = Some k /\ (k = OArr kids \/ exists n g, k = ORef n g /\ f n g = OArr kids).

(** the content streams of a page: Contents is a stream, or an array of streams *)
Definition stream_reference (f : N -> N -> obj) (v : obj) : bool :=
  match v with ORef n g => match f n g with OStream _ _ => true | _ => false end | _ => false end.
Definition array_streams (f : N -> N -> obj) (l : list obj) : list (N * N) :=
  if forallb (stream_reference f) l then flat_map (fun v => match v with ORef n g => [(n, g)] | _ => [] end) l else [].
Definition content_streams (f : N -> N -> obj) (p : N * N) : list (N * N) :=
  match f (fst p) (snd p) with
  | ODict m =>
      match sm_find (str "Contents") m with
      | Some (ORef n g) =>
          match f n g with OStream _ _ => [(n, g)] | OArr l => array_streams f l | _ => [] end
      | Some (OArr l) => array_streams f l
      | _ => []
      end
  | _ => []
  end.
Definition same_ref (x y : N * N) : bool := (fst x =? fst y) && (snd x =? snd y).
(** [s] is the first, the last content stream of the page *)
Definition begins (f : N -> N -> obj) (s p : N * N) : bool := match content_streams f p with x :: _ => same_ref x s | [] => false end.
Definition ends (f : N -> N -> obj) (s p : N * N) : bool := match content_streams f p with x :: r => same_ref (last r x) s | [] => false end.

(** what is drawn on a page: the text, and the image when MediaBox has four elements; 60 and 45 units from its upper right corner *)
Definition number_of (real : bool -> N -> N -> dbl) (f : N -> N -> obj) (v : obj) (z : Z) : Prop :=
  let is o := match o with OInt x => z = x | OReal neg m p => integer_value (QReal (real neg m p)) = Ok z | _ => False end in
  match v with ORef n g => is (f n g) | o => is o end.
Definition media_box (f : N -> N -> obj) (p : N * N) : option (list obj) :=
  match f (fst p) (snd p) with
  | ODict m =>
      match sm_find (str "MediaBox") m with
      | Some (OArr l) => Some l
      | Some (ORef n g) => match f n g with OArr l => Some l | _ => None end
      | _ => None
      end
  | _ => None
  end.
Inductive drawn (real : bool -> N -> N -> dbl) (text image : bytes) (f : N -> N -> obj) (p : N * N) : bytes -> Prop :=
| dr_text : (forall a b c e, media_box f p <> Some [a; b; c; e]) -> drawn real text image f p text
| dr_image : forall a b c e x y, media_box f p = Some [a; b; c; e] -> number_of real f c x -> number_of real f e y ->
    drawn real text image f p (text ++ str "50 0 0 35 " ++ to_string_Z (x - 60) ++ str " " ++ to_string_Z (y - 45) ++ str " cm" ++ [10] ++ image).

(** the operators that save and restore the state of the graphics, each on its line *)
Definition save_line : bytes := str "q" ++ [10].
Definition restore_line : bytes := [10] ++ str "Q" ++ [10].
Definition saves (k : nat) : bytes := List.concat (repeat save_line k).

(** the streams of a page one after the other, as a reader joins them *)
Fixpoint joined (b : N -> N -> bytes) (l : list (N * N)) : bytes :=
  match l with
  | [] => []
  | [s] => b (fst s) (snd s)
  | s :: t => b (fst s) (snd s) ++ [10] ++ joined b t
  end.

(** [p] is one of the kids, or a node below them *)
Inductive descends (f : N -> N -> obj) : list obj -> N * N -> Prop :=
| de_here : forall n g kids, In (ORef n g) kids -> descends f kids (n, g)
| de_below : forall a b m l kids p, In (ORef a b) kids -> f a b = ODict m -> kids_of f m l -> descends f l p -> descends f kids p.

(** a node that can be marked: Type is a name, MediaBox an array, of numbers with 64 bits when it has four elements, Resources a dictionary
    and Font in it; each of them may be missing and each may be a reference *)
Definition is_or_refers (f : N -> N -> obj) (v o : obj) : Prop := v = o \/ exists n g, v = ORef n g /\ f n g = o.
Definition is_number (f : N -> N -> obj) (v : obj) : Prop :=
  (exists z, is_or_refers f v (OInt z)) \/ exists neg m p, is_or_refers f v (OReal neg m p).
Definition in_range (real : bool -> N -> N -> dbl) (f : N -> N -> obj) (v : obj) (least : Z) : Prop :=
  (exists z, is_or_refers f v (OInt z) /\ (- 2 ^ 63 + least <= z)%Z) \/
  exists neg m p z, is_or_refers f v (OReal neg m p) /\ integer_value (QReal (real neg m p)) = Ok z /\ (- 2 ^ 63 + least <= z)%Z.
Definition usable (f : N -> N -> obj) (m : list (bytes * obj)) : Prop :=
  forall v, sm_find (str "Resources") m = Some v -> exists rs, is_or_refers f v (ODict rs) /\
    forall w, sm_find (str "Font") rs = Some w -> exists fs, is_or_refers f w (ODict fs).
Definition ready (real : bool -> N -> N -> dbl) (f : N -> N -> obj) (p : N * N) : Prop :=
  exists m, f (fst p) (snd p) = ODict m /\
    (forall v, sm_find (str "Type") m = Some v -> exists t, is_or_refers f v (OName t)) /\
    (forall v, sm_find (str "MediaBox") m = Some v -> exists l, is_or_refers f v (OArr l) /\
       forall a b c e, l = [a; b; c; e] -> is_number f a /\ is_number f b /\ in_range real f c 60 /\ in_range real f e 45) /\
    usable f m.
