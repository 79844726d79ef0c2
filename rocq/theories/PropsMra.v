(** Property theorems for the multiresolution analysis and for what the inverse
    functions do to their arguments. *)
From Coq Require Import String QArith.
From Verif Require Import Base BaseLemmas CConv Spec Instances Lengths Dwt DwtProofs Multilevel MultilevelProofs Swt SwtSpec SwtProofs Nd NdSpec Axis Multidim SwtNd Mra MraProofs SwtNdArgs ExBanks ExBanks2 ExNd ExMra.
Open Scope Z_scope.

Ltac ex := repeat split; try (vm_compute; congruence); try (intros; vm_compute; congruence).

(** C40. [col out i] is the sum of the samples [i] of all the terms. *)
Theorem C40_mra_dwt : forall (C : CRing) fuel (half sq2 isq2 : C) (x : list C) w m level,
  pr_wavelet w -> 1 <= zlen x -> 0 <= level -> levels_ok m (dec_len w) (Z.to_nat level) (zlen x) ->
  resources fuel (zlen x) (dec_len w) ->
  exists out, mra fuel half sq2 isq2 x w (Some level) TDwt m = Ok out /\ zlen out = level + 1 /\
    (forall a, In a out -> zlen a = zlen x) /\ forall i, 0 <= i < zlen x -> col C out i = gz x i.
Proof. exact mra_dwt. Qed.
Print Assumptions C40_mra_dwt.
Example C40_mra_dwt_ex : pr_wavelet zbank2 /\ levels_ok SYMMETRIC (dec_len zbank2) 2 (zlen [3; 1; 4; 1; 5]) /\
  resources 99 (zlen [3; 1; 4; 1; 5]) (dec_len zbank2) /\
  mra (C := Zring) 99 0 0 0 [3; 1; 4; 1; 5] zbank2 (Some 2) TDwt SYMMETRIC =
    Ok [[17; -17; -17; 17; 45]; [-22; 22; 11; -11; -60]; [8; -4; 10; -5; 20]].
Proof. split; [exact zbank2_pr|]. split; [apply levels_ok_intro; cbn; lia|]. ex. Qed.

Theorem C40_mra_swt : forall (C : CRing) fuel (half sq2 isq2 : C) (x : list C) w level,
  pr_wavelet w -> half [+] half = r1 -> sq2 [*] isq2 = r1 -> 1 <= zlen x -> 1 <= level -> (2 ^ level | zlen x) ->
  swt_resources fuel (zlen x) (dec_len w) level ->
  exists out, mra fuel half sq2 isq2 x w (Some level) TSwt PERIODIZATION = Ok out /\ zlen out = level + 1 /\
    (forall a, In a out -> zlen a = zlen x) /\ forall i, 0 <= i < zlen x -> col C out i = gz x i.
Proof. exact mra_swt. Qed.
Print Assumptions C40_mra_swt.
Example C40_mra_swt_ex : pr_wavelet haar /\ (2 ^ 2 | zlen [3; 1; 4; 4]) /\ swt_resources 99 4 (dec_len haar) 2 /\
  exists out, mra (C := QS2) 99 halfs sqrt2 isqrt2 (map qsz [3; 1; 4; 4]) haar (Some 2) TSwt PERIODIZATION = Ok out /\
    map (map (fun v => fst (show v))) out = [[3; 3; 3; 3]; [- (1 # 4); - (3 # 4); 1 # 4; 3 # 4]; [1 # 4; - (5 # 4); 3 # 4; 1 # 4]]%Q.
Proof. split; [exact haar_pr|]. split; [exists 1; reflexivity|]. split; [ex|]. eexists. split; [vm_compute; reflexivity|]. vm_compute. reflexivity. Qed.

Theorem C40_default_level : forall (C : CRing) fuel (half sq2 isq2 : C) (x : list C) w m,
  mra fuel half sq2 isq2 x w None TDwt m = mra fuel half sq2 isq2 x w (Some (dwt_max_level_c (zlen x) (dec_len w))) TDwt m /\
  forall j, swt_max_level (zlen x) = Ok j -> mra fuel half sq2 isq2 x w None TSwt m = mra fuel half sq2 isq2 x w (Some j) TSwt m.
Proof. exact mra_default. Qed.
Print Assumptions C40_default_level.
Example C40_default_level_ex : swt_max_level (zlen [3; 1; 4; 1]) = Ok 2 /\ dwt_max_level_c 8 2 = 3.
Proof. ex. Qed.

Theorem C40_rejects : forall (C : CRing) fuel (half sq2 isq2 : C) (x : list C) w level m,
  mra fuel half sq2 isq2 x w level TOther m = Err ValueError /\
  (m <> PERIODIZATION -> mra fuel half sq2 isq2 x w level TSwt m = Err ValueError).
Proof. exact mra_rejects. Qed.
Print Assumptions C40_rejects.
Example C40_rejects_ex : SYMMETRIC <> PERIODIZATION /\ mra (C := Zring) 99 1 1 1 [1; 2] zbank (Some 1) TSwt SYMMETRIC = Err ValueError.
Proof. ex. Qed.

(** [arrays out] is the heap holding the terms as separate arrays. *)
Theorem C40_imra_of_terms : forall (C : CRing) (x : list C) out, out <> [] -> (forall a, In a out -> zlen a = zlen x) ->
  (forall i, 0 <= i < zlen x -> col C out i = gz x i) ->
  exists h r, imra (arrays C out) (seq 0 (List.length out)) = Ok (h, r) /\ exists y, nth_error h r = Some y /\ nshape y = [zlen x] /\
    forall i, 0 <= i < zlen x -> ndget y [i] = gz x i.
Proof. exact imra_of_terms. Qed.
Print Assumptions C40_imra_of_terms.
Example C40_imra_of_terms_ex : (forall i, 0 <= i < 2 -> col Zring [[1; 5]; [2; -3]] i = gz (C := Zring) [3; 2] i) /\
  imra (C := Zring) (arrays Zring [[1; 5]; [2; -3]]) [0; 1]%nat = Ok (arrays Zring [[1; 5]; [2; -3]; [3; 2]], 2%nat).
Proof. split; [|reflexivity]. intros i Hi. assert (i = 0 \/ i = 1) as [-> | ->] by lia; reflexivity. Qed.

(** C41. A heap of arrays; an argument is a position in it. *)
Theorem C41_imra_pure : forall (C : CRing) (h h' : heap) cs r, imra (C := C) h cs = Ok (h', r) -> exists new, h' = h ++ new.
Proof. exact imra_pure. Qed.
Print Assumptions C41_imra_pure.
Theorem C41_imra_value : forall (C : CRing) (h : heap) cs sh, cs <> [] ->
  (forall c, In c cs -> exists a, nth_error h c = Some a /\ nshape a = sh) ->
  exists h' r y, imra (C := C) h cs = Ok (h', r) /\ nth_error h' r = Some y /\ nshape y = sh /\
    forall idx, Nd.valid sh idx -> ndget y idx = hsum C h cs idx.
Proof. exact imra_sum. Qed.
Print Assumptions C41_imra_value.
Example C41_imra_ex : exists h', imra (C := Zring) h4 [0; 1; 3]%nat = Ok (h', 5%nat) /\ firstn 4 h' = h4 /\
  nth_error h' 5 = Some (mkNd (C := Zring) [1; 1] [14]).
Proof. eexists. split; [vm_compute; reflexivity|]. split; reflexivity. Qed.

Theorem C41_imra2_refuted : exists (h h' h'' : heap (C := Zring)) c0 ds r,
  imra2 h c0 ds = Ok (h', r) /\ nth_error h' c0 <> nth_error h c0 /\
  imra2 h' c0 ds = Ok (h'', r) /\ nth_error h'' r <> nth_error h' r.
Proof. exact imra2_not_pure. Qed.
Print Assumptions C41_imra2_refuted.
Theorem C41_imran_refuted : exists (h h' h'' : heap (C := Zring)) c0 ds r,
  imran h c0 ds = Ok (h', r) /\ nth_error h' c0 <> nth_error h c0 /\
  imran h' c0 ds = Ok (h'', r) /\ nth_error h'' r <> nth_error h' r.
Proof. exact imran_not_pure. Qed.
Print Assumptions C41_imran_refuted.

(** Missing: the first argument itself is overwritten by the result. *)
Theorem C41_imra2_others_partial : forall (C : CRing) (h h' : heap) c0 ds r, imra2 (C := C) h c0 ds = Ok (h', r) ->
  r = c0 /\ List.length h' = List.length h /\ forall k, k <> c0 -> nth_error h' k = nth_error h k.
Proof. exact imra2_others. Qed.
Print Assumptions C41_imra2_others_partial.
Theorem C41_imran_others_partial : forall (C : CRing) (h h' : heap) c0 ds r, imran (C := C) h c0 ds = Ok (h', r) ->
  r = c0 /\ List.length h' = List.length h /\ forall k, k <> c0 -> nth_error h' k = nth_error h k.
Proof. exact imran_others. Qed.
Print Assumptions C41_imran_others_partial.
Theorem C41_imra2_value : forall (C : CRing) (h : heap) c0 (ds : list (list nat)) sh,
  (exists a, nth_error h c0 = Some a /\ nshape a = sh) -> (forall d, In d ds -> List.length d = 3%nat) ->
  (forall d c, In d ds -> In c d -> c <> c0 /\ exists a, nth_error h c = Some a /\ nshape a = sh) ->
  exists h' y, imra2 (C := C) h c0 ds = Ok (h', c0) /\ nth_error h' c0 = Some y /\ nshape y = sh /\
    forall idx, Nd.valid sh idx -> ndget y idx = hsum C h (c0 :: List.concat ds) idx.
Proof. exact imra2_sum. Qed.
Print Assumptions C41_imra2_value.
Theorem C41_imran_value : forall (C : CRing) (h : heap) c0 (ds : list (dict nat)) sh,
  (exists a, nth_error h c0 = Some a /\ nshape a = sh) ->
  (forall d k c, In d ds -> In (k, c) d -> c <> c0 /\ exists a, nth_error h c = Some a /\ nshape a = sh) ->
  exists h' y, imran (C := C) h c0 ds = Ok (h', c0) /\ nth_error h' c0 = Some y /\ nshape y = sh /\
    forall idx, Nd.valid sh idx -> ndget y idx = hsum C h (c0 :: flat_map (map snd) ds) idx.
Proof. exact imran_sum. Qed.
Print Assumptions C41_imran_value.
Example C41_in_place_ex : exists h', imra2 (C := Zring) h4 0 [[1; 2; 3]%nat] = Ok (h', 0%nat) /\
  nth_error h' 0 = Some (mkNd (C := Zring) [1; 1] [16]) /\ skipn 1 h' = skipn 1 h4 /\
  imran (C := Zring) h4 0 [[("ad", 1); ("da", 2); ("dd", 3)]%nat%string] = Ok (h', 0%nat).
Proof. eexists. split; [vm_compute; reflexivity|]. repeat split; reflexivity. Qed.

(** C42. [same_item P a b]: the elements [a] and [b] are equal arrays, or
    dictionaries that agree on all keys outside [P]. *)
Theorem C42_iswtn_refuted : exists (cs cs' : list (swtn_item Zring)) w e d d' k,
  iswtn 99 jk 1 cs w None None = (cs', Err e) /\
  In (NDict d) cs /\ cs' = [NDict d'] /\ cs = [NDict d] /\ dget d k <> None /\ dget d' k = None.
Proof. exact iswtn_loses. Qed.
Print Assumptions C42_iswtn_refuted.

(** Missing: after an exception one dictionary may have lost its approximation. *)
Theorem C42_iswtn_always_partial : forall (C : CRing) fuel junk (half : C) coeffs w axes norm cs' r,
  iswtn fuel junk half coeffs w axes norm = (cs', r) -> Forall2 (same_item approx_key) coeffs cs'.
Proof. exact iswtn_always. Qed.
Print Assumptions C42_iswtn_always_partial.
Theorem C42_iswtn_success : forall (C : CRing) fuel junk (half : C) coeffs w axes norm cs' r,
  iswtn fuel junk half coeffs w axes norm = (cs', Ok r) -> Forall2 (same_item (fun _ => False)) coeffs cs'.
Proof. exact iswtn_success. Qed.
Print Assumptions C42_iswtn_success.
Theorem C42_iswtn_trimmed : forall (C : CRing) fuel junk (half : C) a rest w axes norm,
  fst (iswtn fuel junk half (NArr a :: rest) w axes norm) = NArr a :: rest.
Proof. exact iswtn_trimmed. Qed.
Print Assumptions C42_iswtn_trimmed.
Example C42_ex : exists cs' r,
  iswtn (C := Zring) 99 jk 1 [NDict [("aa", s2_ 2 2 [1; 2; 3; 4]); ("ad", s2_ 2 2 [1; 0; 3; 1]); ("da", s2_ 2 2 [1; 2; 0; 4]); ("dd", s2_ 2 2 [0; 2; 3; 4])]]%string
    (One zbank) None None = (cs', Ok r) /\ map (fun it => match it with NDict d => map fst d | NArr _ => [] end) cs' = [["ad"; "da"; "dd"; "aa"]]%string.
Proof. do 2 eexists. split; [vm_compute; reflexivity|]. reflexivity. Qed.
