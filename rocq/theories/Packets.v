(** Model of the wavelet packet trees of pywt/_wavelet_packets.py: BaseNode,
    Node, Node2D, NodeND, WaveletPacket, WaveletPacket2D, WaveletPacketND.

    Simplifications. Objects live on a heap and are referred to by position.
    The data of a node is an array value: assigning into an array in place is
    not modelled, and the memory layout of the arrays does not influence any
    transform (AxisProofs.v). wavelet, mode and axes are the same in all nodes
    (line 61-65) and are never reassigned; they are part of [wpclass]. Paths are
    strings (tuples are joined, line 254-259; anything else is a TypeError).
    Python's recursion limit is not modelled. *)
From Coq Require Import Ascii String.
From Verif Require Import Base CConv Lengths Dwt Multilevel Swt Nd NdSpec Axis Multidim MultilevelNd SwtNd.

(** _wavelet_packets.py lines 22-27 (get_graycode_order); range(n) is empty for
    n <= 0. *)
Fixpoint gray_loop (x y : string) (n : nat) (l : list string) : list string :=
  match n with
  | O => l
  | S n' => gray_loop x y n' (map (append x) l ++ map (append y) (rev l))
  end.
Definition get_graycode_order (level : Z) (x y : string) : list string := gray_loop x y (Z.to_nat (level - 1)) [x; y].

(** What the subclasses provide, for one wavelet, mode and axes. [D] is the type
    of array values. *)
Record wpclass (D : Type) := mkWpclass {
  parts : list string;                             (* PARTS, in order *)
  plen : nat;                                      (* PART_LEN *)
  fwd : D -> res (dict D);                         (* dwt/dwt2/dwtn, in the order the subnodes are created *)
  inv : dict (option D) -> res (option D);         (* idwt/idwt2/idwtn; keys are [parts] *)
  shp : D -> list Z;                               (* .shape *)
  cut : list Z -> D -> D;                          (* rec[tuple([slice(sz) for sz in shape])] *)
  mlev : D -> res Z;                               (* dwt_max_level(min(data.shape), wavelet) *)
  keeps : bool;                                    (* _decompose of an empty node keeps subnodes (1-D only) *)
  trims : bool                                     (* _reconstruct trims, and refuses if all data is None (1-D and 2-D) *)
}.
Arguments parts {D}. Arguments plen {D}. Arguments fwd {D}. Arguments inv {D}. Arguments shp {D}. Arguments cut {D}.
Arguments mlev {D}. Arguments keeps {D}. Arguments trims {D}.

(** The attributes of a node; [nkids] holds the subnodes that are not None. *)
Record node (D : Type) := mkNode {
  nparent : option nat; npath : string; nlevel : Z; ndat : option D; ndshape : option (list Z); nmaxl : option Z;
  nkids : dict nat }.
Arguments mkNode {D}. Arguments nparent {D}. Arguments npath {D}. Arguments nlevel {D}. Arguments ndat {D}.
Arguments ndshape {D}. Arguments nmaxl {D}. Arguments nkids {D}.

(** s[0:n], s[n:], s[-n:]; s[-0:] is s. *)
Fixpoint take (n : nat) (s : string) : string :=
  match n, s with S n', String c s' => String c (take n' s') | _, _ => EmptyString end.
Fixpoint drop (n : nat) (s : string) : string :=
  match n, s with S n', String _ s' => drop n' s' | _, _ => s end.
Definition last_part (n : nat) (s : string) : string := if Nat.eqb n 0 then s else drop (String.length s - n) s.

Fixpoint set_nth {A} (n : nat) (v : A) (l : list A) : list A :=
  match l, n with [], _ => [] | _ :: t, O => v :: t | h :: t, S n' => h :: set_nth n' v t end.

Section Tree.
Context {D : Type}.
Variable K : wpclass D.

Definition nheap : Type := list (node D).
(** A computation changes the heap and returns or raises. *)
Definition M (A : Type) : Type := nheap -> nheap * res A.
Definition ret {A} (a : A) : M A := fun h => (h, Ok a).
Definition raise {A} (e : Z) : M A := fun h => (h, Err e).
Definition lift {A} (r : res A) : M A := fun h => (h, r).
Definition bindM {A B} (m : M A) (f : A -> M B) : M B := fun h =>
  let '(h, r) := m h in match r with Ok a => f a h | OOB => (h, OOB) | Fuel => (h, Fuel) | Err e => (h, Err e) end.
Local Notation "x <~ m ;; f" := (bindM m (fun x => f)) (at level 61, m at next level, right associativity).
Fixpoint iterM {A} (f : A -> M unit) (l : list A) : M unit :=
  match l with [] => ret tt | a :: t => _ <~ f a ;; iterM f t end.

Definition get (n : nat) : M (node D) := fun h => (h, match nth_error h n with Some x => Ok x | None => OOB end).
Definition put (n : nat) (x : node D) : M unit := fun h => (set_nth n x h, Ok tt).
(** self.data = v, self._maxlevel = v, self.parent = None, setattr(self, part, v) *)
Definition set_data (x : node D) (v : option D) : node D :=
  mkNode (nparent x) (npath x) (nlevel x) v (ndshape x) (nmaxl x) (nkids x).
Definition set_max (x : node D) (v : option Z) : node D :=
  mkNode (nparent x) (npath x) (nlevel x) (ndat x) (ndshape x) v (nkids x).
Definition set_orphan (x : node D) : node D :=
  mkNode None (npath x) (nlevel x) (ndat x) (ndshape x) (nmaxl x) (nkids x).
Definition set_kid (x : node D) (part : string) (v : option nat) : node D :=
  mkNode (nparent x) (npath x) (nlevel x) (ndat x) (ndshape x) (nmaxl x)
    (match v with Some c => dset (nkids x) part c | None => dremove (nkids x) part end).

(** _wavelet_packets.py lines 110-112, 608-611: part not in self.PARTS. *)
Definition part_ok (part : string) : bool := existsb (String.eqb part) (parts K).

(** _wavelet_packets.py lines 125-152, 618-644 (_evaluate_maxlevel), from the
    parent and from the subnodes. [f] bounds the recursion by the heap size. *)
Fixpoint eval_parent (f : nat) (h : nheap) (n : nat) : res (option Z) :=
  match f with
  | O => Fuel
  | S f' =>
      match nth_error h n with
      | None => OOB
      | Some x =>
          match nmaxl x, ndat x, nparent x with
          | Some m, _, _ => Ok (Some m)
          | None, Some d, _ => l <- mlev K d ;; Ok (Some (nlevel x + l))
          | None, None, Some p => eval_parent f' h p
          | None, None, None => Ok None
          end
      end
  end.
Fixpoint eval_sub (f : nat) (h : nheap) (n : nat) : res (option Z) :=
  match f with
  | O => Fuel
  | S f' =>
      match nth_error h n with
      | None => OOB
      | Some x =>
          match nmaxl x, ndat x with
          | Some m, _ => Ok (Some m)
          | None, Some d => l <- mlev K d ;; Ok (Some (nlevel x + l))
          | None, None =>
              foldM (fun acc part => match acc with
                       | Some _ => Ok acc
                       | None => match dget (nkids x) part with Some c => eval_sub f' h c | None => Ok None end
                       end) None (parts K)
          end
      end
  end.

(** _wavelet_packets.py lines 154-165 (maxlevel), with its cache. *)
Definition maxlevel (n : nat) : M (option Z) :=
  x <~ get n ;;
  match nmaxl x with
  | Some m => ret (Some m)
  | None =>
      v <~ (fun h => (h, eval_parent (S (List.length h)) h n)) ;;
      _ <~ put n (set_max x v) ;;
      match v with
      | Some _ => ret v
      | None => v <~ (fun h => (h, eval_sub (S (List.length h)) h n)) ;; _ <~ put n (set_max x v) ;; ret v
      end
  end.

(** _wavelet_packets.py lines 58-87 (BaseNode.__init__) with a parent. *)
Definition new_node (p : nat) (data : option D) (name : string) : M nat :=
  m <~ maxlevel p ;;
  x <~ get p ;;
  fun h => (h ++ [mkNode (Some p) (append (npath x) name) (nlevel x + 1) data (option_map (shp K) data) m []], Ok (List.length h)).

(** _wavelet_packets.py lines 92-99 (_create_subnode_base, overwrite=True). *)
Definition create_subnode (n : nat) (part : string) (data : option D) : M unit :=
  if negb (part_ok part) then raise ValueError else
  c <~ new_node n data part ;;
  x <~ get n ;;
  put n (set_kid x part (Some c)).

(** _wavelet_packets.py lines 432-450, 494-510, 646-659 (_decompose). *)
Definition decompose_ (n : nat) : M unit :=
  x <~ get n ;;
  match ndat x with
  | None => iterM (fun part => x <~ get n ;;
                     if keeps K && (match dget (nkids x) part with Some _ => true | None => false end) then ret tt
                     else create_subnode n part None) (parts K)
  | Some d => cs <~ lift (fwd K d) ;; iterM (fun '(part, v) => create_subnode n part (Some v)) cs
  end.
(** _wavelet_packets.py lines 171-187 (decompose); comparing with None is a TypeError. *)
Definition decompose (n : nat) : M unit :=
  m <~ maxlevel n ;;
  x <~ get n ;;
  match m with
  | None => raise TypeError
  | Some m => if nlevel x <? m then decompose_ n else raise ValueError
  end.

(** _wavelet_packets.py lines 213-232 (get_subnode). *)
Definition get_subnode (n : nat) (part : string) (dec : bool) : M (option nat) :=
  if negb (part_ok part) then raise ValueError else
  x <~ get n ;;
  match dget (nkids x) part, dec, ndat x with
  | Some c, _, _ => ret (Some c)
  | None, true, Some _ => _ <~ decompose n ;; x <~ get n ;; ret (dget (nkids x) part)
  | None, _, _ => ret None
  end.

Definition too_long (len : nat) (m : option Z) : bool :=
  match m with Some m => m * Z.of_nat (plen K) <? Z.of_nat len | None => false end.

(** _wavelet_packets.py lines 234-270 (__getitem__); None[...] is a TypeError.
    [f] bounds the recursion by the length of the path. *)
Fixpoint getitem_ (f : nat) (n : nat) (path : string) : M nat :=
  match f with
  | O => lift Fuel
  | S f' =>
      m <~ maxlevel n ;;
      if too_long (String.length path) m then raise IndexError else
      match path with
      | EmptyString => ret n
      | _ =>
          c <~ get_subnode n (take (plen K) path) true ;;
          match c with
          | Some c => getitem_ f' c (drop (plen K) path)
          | None => raise TypeError
          end
      end
  end.
Definition getitem (n : nat) (path : string) : M nat := getitem_ (S (String.length path)) n path.

(** _wavelet_packets.py lines 272-307 (__setitem__), data an array. *)
Fixpoint setitem_ (f : nat) (n : nat) (path : string) (data : D) : M unit :=
  match f with
  | O => lift Fuel
  | S f' =>
      m <~ maxlevel n ;;
      x <~ get n ;;
      if too_long (String.length (npath x) + String.length path) m then raise IndexError else
      match path with
      | EmptyString => put n (set_data x (Some data))
      | _ =>
          c <~ get_subnode n (take (plen K) path) false ;;
          c <~ match c with
               | Some c => ret (Some c)
               | None => _ <~ create_subnode n (take (plen K) path) None ;; get_subnode n (take (plen K) path) false
               end ;;
          match c with Some c => setitem_ f' c (drop (plen K) path) data | None => raise TypeError end
      end
  end.
Definition setitem (n : nat) (path : string) (data : D) : M unit := setitem_ (S (String.length path)) n path data.

(** _wavelet_packets.py lines 309-326 (__delitem__), 107-108. *)
Definition delitem (n : nat) (path : string) : M unit :=
  c <~ getitem n path ;;
  x <~ get c ;;
  _ <~ put c (set_orphan x) ;;
  match nparent x with
  | Some p => let name := last_part (plen K) (npath x) in
              if String.eqb name EmptyString then ret tt else
              y <~ get p ;; put p (set_kid y name None)
  | None => ret tt
  end.

Definition has_any_subnode (x : node D) : bool :=
  existsb (fun part => match dget (nkids x) part with Some _ => true | None => false end) (parts K).

(** _wavelet_packets.py lines 192-208 (reconstruct), 452-471, 512-542, 661-680
    (_reconstruct) without update: the heap is only read. [f] bounds the
    recursion by the heap size. *)
Fixpoint recon (f : nat) (h : nheap) (n : nat) : res (option D) :=
  match f with
  | O => Fuel
  | S f' =>
      match nth_error h n with
      | None => OOB
      | Some x =>
          if negb (has_any_subnode x) then Ok (ndat x) else
          cs <- mapM (fun part => match dget (nkids x) part with
                                  | Some c => v <- recon f' h c ;; Ok (part, v)
                                  | None => Ok (part, None)
                                  end) (parts K) ;;
          if trims K && forallb (fun '(_, v) => match v with None => true | Some _ => false end) cs then Err ValueError else
          r <- inv K cs ;;
          if trims K then
            match r, ndshape x with
            | None, None => Ok None
            | None, Some _ => Err AttributeError
            | Some rec, Some s => Ok (Some (if shape_eqb (shp K rec) s then rec else cut K s rec))
            | Some rec, None => Ok (Some rec)
            end
          else Ok r
      end
  end.

Definition reconstruct (n : nat) (update : bool) : M (option D) :=
  x <~ get n ;;
  if negb (has_any_subnode x) then ret (ndat x) else
  r <~ (fun h => (h, recon (S (List.length h)) h n)) ;;
  if update then _ <~ put n (set_data x r) ;; ret r else ret r.

(** _wavelet_packets.py lines 731-748, 857-874, 1005-1022: reconstruct of the
    WaveletPacket classes; [size] is data_size. data[[slice(sz) ...]] with a
    list instead of a tuple is an IndexError (numpy >= 1.23, pyproject.toml
    line 34). *)
Definition root_reconstruct (size : option (list Z)) (n : nat) (update : bool) : M (option D) :=
  x <~ get n ;;
  if negb (has_any_subnode x) then ret (ndat x) else
  r <~ reconstruct n update ;;
  match size, r with
  | Some _, None => raise AttributeError
  | Some s, Some rec =>
      if negb (shape_eqb (shp K rec) s) then raise IndexError else
      if update then x <~ get n ;; _ <~ put n (set_data x r) ;; ret r else ret r
  | None, _ => if update then x <~ get n ;; _ <~ put n (set_data x r) ;; ret r else ret r
  end.

(** _wavelet_packets.py lines 380-383: the loop [for part in self.PARTS]. *)
Fixpoint walk_parts (sub : nat -> list nat -> M (list nat)) (dec : bool) (n : nat) (l : list string) (acc : list nat) : M (list nat) :=
  match l with
  | [] => ret acc
  | part :: t =>
      c <~ get_subnode n part dec ;;
      acc <~ match c with Some c => sub c acc | None => ret acc end ;;
      walk_parts sub dec n t acc
  end.
(** _wavelet_packets.py lines 358-383 (walk); the function passed in threads
    the list of collected nodes. [f] bounds the depth. *)
Fixpoint walk (f : nat) (func : nat -> list nat -> M (list nat * bool)) (dec : bool) (n : nat) (acc : list nat) : M (list nat) :=
  match f with
  | O => lift Fuel
  | S f' =>
      r <~ func n acc ;;
      if negb (snd r) then ret (fst r) else
      x <~ get n ;;
      m <~ maxlevel n ;;
      match m with
      | None => raise TypeError
      | Some m => if negb (nlevel x <? m) then ret (fst r) else walk_parts (walk f' func dec) dec n (parts K) (fst r)
      end
  end.

(** _wavelet_packets.py lines 336-356 (get_leaf_nodes). *)
Definition leaf_collect (dec : bool) (n : nat) (acc : list nat) : M (list nat * bool) :=
  x <~ get n ;;
  m <~ maxlevel n ;;
  let empty := match ndat x with None => true | Some _ => false end in
  if (match m with Some m => nlevel x =? m | None => false end) && negb empty then ret (acc ++ [n], false) else
  if negb dec && negb (has_any_subnode x) then ret (acc ++ [n], false) else
  ret (acc, true).
Definition get_leaf_nodes (f : nat) (n : nat) (dec : bool) : M (list nat) := walk f (leaf_collect dec) dec n [].

(** _wavelet_packets.py lines 783-799, 907-923, 1036-1051: the nodes of a level. *)
Definition level_collect (level : Z) (n : nat) (acc : list nat) : M (list nat * bool) :=
  x <~ get n ;; if nlevel x =? level then ret (acc ++ [n], false) else ret (acc, true).
Definition level_nodes (f : nat) (n : nat) (level : Z) (dec : bool) : M (list nat) :=
  m <~ maxlevel n ;;
  match m with
  | None => raise TypeError
  | Some m => if m <? level then raise ValueError else walk f (level_collect level) dec n []
  end.

(** dict((key(node), node) for node in result), in insertion order. *)
Definition node_path (n : nat) : M string := x <~ get n ;; ret (npath x).
Fixpoint mapMM {A B} (f : A -> M B) (l : list A) : M (list B) :=
  match l with [] => ret [] | a :: t => b <~ f a ;; bs <~ mapMM f t ;; ret (b :: bs) end.

(** _wavelet_packets.py lines 750-806 (WaveletPacket.get_level); [freq] is
    order == "freq". *)
Definition get_level (f : nat) (n : nat) (level : Z) (freq dec : bool) : M (list nat) :=
  result <~ level_nodes f n level dec ;;
  if negb freq then ret result else
  ps <~ mapMM node_path result ;;
  let d := fold_left (fun d '(p, c) => dset d p c) (combine ps result) [] in
  ret (flat_map (fun p => match dget d p with Some c => [c] | None => [] end) (get_graycode_order level "a" "d")).

(** _wavelet_packets.py lines 544-552 (expand_2d_path); other letters are a KeyError. *)
Fixpoint expand_2d (path : string) : res (string * string) :=
  match path with
  | EmptyString => Ok (EmptyString, EmptyString)
  | String c s =>
      '(a, b) <- (if Ascii.eqb c "d" then Ok ("h", "h") else if Ascii.eqb c "h" then Ok ("h", "l") else
                  if Ascii.eqb c "v" then Ok ("l", "h") else if Ascii.eqb c "a" then Ok ("l", "l") else Err KeyError)%char ;;
      '(r, t) <- expand_2d s ;;
      Ok (String a r, String b t)
  end.
(** _wavelet_packets.py lines 925-937: rows and columns in frequency order. *)
Definition get_level_2d_freq (f : nat) (n : nat) (level : Z) (dec : bool) : M (list (list nat)) :=
  result <~ level_nodes f n level dec ;;
  ps <~ mapMM node_path result ;;
  rcs <~ lift (mapM expand_2d ps) ;;
  let nodes := fold_left (fun d '((row, col), c) =>
                  dset d row (dset (match dget d row with Some r => r | None => [] end) col c)) (combine rcs result) [] in
  let g := get_graycode_order level "l" "h" in
  ret (map (fun row => flat_map (fun p => match dget row p with Some c => [c] | None => [] end) g)
         (flat_map (fun p => match dget nodes p with Some r => [r] | None => [] end) g)).

(** Lines 58-87 without a parent, then _maxlevel: a new packet. *)
Definition root_node (data : option D) (maxl : option Z) : node D :=
  mkNode None EmptyString 0 data (option_map (shp K) data) maxl [].

(** ** Histories
    What a program can do with the nodes it has ever got hold of. Reading and
    writing [data] directly, as in [node.data = x], is included. *)
Inductive op : Type :=
  | OGet (n : nat) (path : string)
  | OSet (n : nat) (path : string) (data : D)
  | ODel (n : nat) (path : string)
  | ODecompose (n : nat)
  | OSubnode (n : nat) (part : string) (dec : bool)
  | OReconstruct (n : nat) (update : bool)
  | ORoot (size : option (list Z)) (n : nat) (update : bool)
  | OData (n : nat) (data : option D)
  | OMaxlevel (n : nat)
  | OLevel (f : nat) (n : nat) (level : Z) (dec : bool)
  | OLeaves (f : nat) (n : nat) (dec : bool).
Definition do_op (o : op) : M unit :=
  match o with
  | OGet n path => _ <~ getitem n path ;; ret tt
  | OSet n path data => setitem n path data
  | ODel n path => delitem n path
  | ODecompose n => decompose n
  | OSubnode n part dec => _ <~ get_subnode n part dec ;; ret tt
  | OReconstruct n update => _ <~ reconstruct n update ;; ret tt
  | ORoot size n update => _ <~ root_reconstruct size n update ;; ret tt
  | OData n data => x <~ get n ;; put n (set_data x data)
  | OMaxlevel n => _ <~ maxlevel n ;; ret tt
  | OLevel f n level dec => _ <~ level_nodes f n level dec ;; ret tt
  | OLeaves f n dec => _ <~ get_leaf_nodes f n dec ;; ret tt
  end.
(** Exceptions are caught by the caller; the heap keeps what was done before. *)
Definition run (h : nheap) (ops : list op) : nheap := fold_left (fun h o => fst (do_op o h)) ops h.

End Tree.
Arguments wpclass D : clear implicits. Arguments nheap D : clear implicits. Arguments op D : clear implicits.
Notation "x <~ m ;; f" := (bindM m (fun x => f)) (at level 61, m at next level, right associativity).

(** ** The three classes *)
Section Classes.
Context {C : CRing}.
Variable fuel : nat.
Variable junk : Z -> C.

(** min(data.shape); min of an empty shape is a ValueError. *)
Definition min_shape (a : nd C) : res Z := match list_min (nshape a) with Some n => Ok n | None => Err ValueError end.
Definition nd_cut (sh : list Z) (a : nd C) : nd C :=
  val C (view (of_nd a) (map (fun '(a, b) => Z.min a b) (combine (nshape a) sh))).
Definition oval (r : res (option (sarr C))) : res (option (nd C)) := r <- r ;; Ok (option_map (val C) r).
Definition arg (cs : dict (option (nd C))) (k : string) : option (sarr C) :=
  match dget cs k with Some (Some a) => Some (of_nd a) | _ => None end.

(** _wavelet_packets.py lines 415-471 (Node). *)
Definition wp1 (w : wavelet C) (m : mode) (axis : Z) : wpclass (nd C) :=
  mkWpclass _ ["a"; "d"]%string 1
    (fun d => '(cA, cD) <- py_dwt fuel junk (of_nd d) w m axis ;; Ok [("a"%string, val C cA); ("d"%string, val C cD)])
    (fun cs => oval (py_idwt fuel junk (arg cs "a") (arg cs "d") w m axis))
    nshape nd_cut (fun d => n <- min_shape d ;; dwt_max_level n (dec_len w)) true true.

(** _wavelet_packets.py lines 474-542 (Node2D). *)
Definition wp2 (w : wavelet C) (m : mode) (axes : list Z) : wpclass (nd C) :=
  mkWpclass _ ["a"; "h"; "v"; "d"]%string 1
    (fun d => '(LL, (HL, LH, HH)) <- dwt2 fuel junk (of_nd d) (One w) (One m) axes ;;
              Ok [("a", val C LL); ("v", val C LH); ("h", val C HL); ("d", val C HH)]%string)
    (fun cs => oval (idwt2 fuel junk (arg cs "a", (arg cs "h", arg cs "v", arg cs "d")) (One w) (One m) axes))
    nshape nd_cut (fun d => n <- min_shape d ;; dwt_max_level n (dec_len w)) false true.

(** _wavelet_packets.py lines 555-680 (NodeND). *)
Definition wpn (w : wavelet C) (m : mode) (axes : list Z) : wpclass (nd C) :=
  mkWpclass _ (ad_keys (List.length axes)) (List.length axes)
    (fun d => cs <- dwtn fuel junk (of_nd d) (One w) (One m) (Some axes) ;; Ok (map (fun '(k, v) => (k, val C v)) cs))
    (fun cs => oval (idwtn fuel junk (map (fun '(k, v) => (k, option_map of_nd v)) cs) (One w) (One m) (Some axes)))
    nshape nd_cut (fun d => n <- min_shape d ;; dwt_max_level n (dec_len w)) false false.

(** _wavelet_packets.py lines 703-725 (WaveletPacket.__init__): the axis that is
    stored and the heap with the new root at position 0. *)
Definition packet1 (data : option (nd C)) (w : wavelet C) (maxl : option Z) (axis : Z) : res (Z * nheap (nd C)) :=
  match data with
  | Some d =>
      let axis := if axis <? 0 then axis + zlen (nshape d) else axis in
      if negb ((0 <=? axis) && (axis <? zlen (nshape d))) then Err ValueError else
      maxl <- match maxl with Some l => Ok l | None => dwt_max_level (nthz (Z.to_nat axis) (nshape d)) (dec_len w) end ;;
      Ok (axis, [root_node (wp1 w PERIODIZATION axis) data (Some maxl)])
  | None => Ok (axis, [root_node (wp1 w PERIODIZATION axis) data maxl])
  end.

(** _wavelet_packets.py lines 829-851 (WaveletPacket2D.__init__). *)
Definition packet2 (data : option (nd C)) (w : wavelet C) (maxl : option Z) (axes : list Z) : res (nheap (nd C)) :=
  if negb (Nat.eqb (distinct axes) 2) then Err ValueError else
  match data with
  | Some d =>
      if zlen (nshape d) <? 2 then Err ValueError else
      sizes <- mapM (py_index (nshape d)) axes ;;
      maxl <- match maxl with Some l => Ok l
              | None => match list_min sizes with Some n => dwt_max_level n (dec_len w) | None => Err ValueError end end ;;
      Ok [root_node (wp2 w PERIODIZATION axes) data (Some maxl)]
  | None => Ok [root_node (wp2 w PERIODIZATION axes) data maxl]
  end.

(** _wavelet_packets.py lines 961-1003 (WaveletPacketND.__init__): the axes that
    are stored, and the heap. *)
Definition packetn (data : option (nd C)) (w : wavelet C) (maxl : option Z) (axes : option (list Z)) : res (list Z * nheap (nd C)) :=
  axes <- match axes, data with
          | Some l, _ => Ok l
          | None, Some d => Ok (tab (zlen (nshape d)) (fun i => i))
          | None, None => Err ValueError
          end ;;
  if negb (Nat.eqb (distinct axes) (List.length axes)) then Err ValueError else
  match data with
  | Some d =>
      if zlen (nshape d) =? 0 then Err ValueError else
      if zlen (nshape d) <? zlen axes then Err ValueError else
      sizes <- mapM (py_index (nshape d)) axes ;;
      maxl <- match maxl with Some l => Ok l
              | None => match list_min sizes with Some n => dwt_max_level n (dec_len w) | None => Err ValueError end end ;;
      Ok (axes, [root_node (wpn w PERIODIZATION axes) data (Some maxl)])
  | None => Ok (axes, [root_node (wpn w PERIODIZATION axes) data maxl])
  end.
End Classes.
