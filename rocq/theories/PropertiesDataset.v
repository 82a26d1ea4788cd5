(** C139: the part of a data set that is asked for. *)
From Verif Require Import PyStr PyStrFacts PyDict PyDictFacts Ast Args ArgsFacts UtilsFile TablesData Generate GenerateData GenerateRows PropertiesGenerate FlagSpec FlagFacts DatasetSpec DatasetFacts DatasetCalls.
Opaque api_mapping generators.

Lemma mnist_rows n api name : In (n, (api, name)) [("torchvision.datasets.MNIST", ("paddle.vision.datasets.MNIST", "MNIST"));
                                  ("torchvision.datasets.FashionMNIST", ("paddle.vision.datasets.FashionMNIST", "FashionMNIST"))] ->
  (if contains "FashionMNIST" api then "FashionMNIST" else "MNIST") = name /\
  exists s r, find (fun r => String.eqb (r_name r) n) api_mapping = Some r /\ generator r = Some (s, g_MNISTMatcher) /\ paddle_api (r_entry r) = Some api.
Proof.
  intros [E|[E|[]]]; injection E as <- <- <-; (split; [vm_compute; reflexivity|]);
    (eexists; eexists; split; [vm_compute; reflexivity|split; [vm_compute; reflexivity|reflexivity]]).
Qed.
Lemma cifar_rows n api file : In (n, (api, file)) [("torchvision.datasets.CIFAR10", ("paddle.vision.datasets.Cifar10", "cifar-10-python.tar.gz"));
                                  ("torchvision.datasets.CIFAR100", ("paddle.vision.datasets.Cifar100", "cifar-100-python.tar.gz"))] ->
  (if contains "Cifar100" api then "cifar-100-python.tar.gz" else "cifar-10-python.tar.gz") = file /\
  exists s r, find (fun r => String.eqb (r_name r) n) api_mapping = Some r /\ generator r = Some (s, g_CifarMatcher) /\ paddle_api (r_entry r) = Some api.
Proof.
  intros [E|[E|[]]]; injection E as <- <- <-; (split; [vm_compute; reflexivity|]);
    (eexists; eexists; split; [vm_compute; reflexivity|split; [vm_compute; reflexivity|reflexivity]]).
Qed.
Lemma flowers_row :
  exists s r, find (fun r => String.eqb (r_name r) "torchvision.datasets.Flowers102") api_mapping = Some r /\ generator r = Some (s, g_Flowers102Matcher) /\
    paddle_api (r_entry r) = Some "paddle.vision.datasets.Flowers".
Proof. eexists; eexists; split; [vm_compute; reflexivity|split; [vm_compute; reflexivity|reflexivity]]. Qed.

(** MNIST and FashionMNIST: the mode and both files follow the argument train (True where it is
    left out), all other arguments stay. *)
Theorem C139_handwritten_digits :
  forall n api name args kwargs t root train i,
    In (n, (api, name)) [("torchvision.datasets.MNIST", ("paddle.vision.datasets.MNIST", "MNIST"));
                         ("torchvision.datasets.FashionMNIST", ("paddle.vision.datasets.FashionMNIST", "FashionMNIST"))] ->
    reads_as n args kwargs t -> (forall w, ~ In (None, w) t) ->
    passes t "root" root -> given_or t "train" "(True)" train ->
    exists q u l mode images labels,
      answer n None args kwargs i = Some (Ret (Converted q u)) /\
      render q = String nl "import os" ++ String nl "" ++ call_of api l ++ String nl "" /\
      made_of l t ["root"; "train"] [("mode", mode); ("image_path", images); ("label_path", labels)] /\
      decides train "'train'" "'test'" mode /\
      decides train (below root (name ++ "/raw/train-images-idx3-ubyte.gz")) (below root (name ++ "/raw/t10k-images-idx3-ubyte.gz")) images /\
      decides train (below root (name ++ "/raw/train-labels-idx1-ubyte.gz")) (below root (name ++ "/raw/t10k-labels-idx1-ubyte.gz")) labels.
Proof.
  intros n api name args kwargs t root train i I R S P T. destruct (mnist_rows _ _ _ I) as (C & s & r & F & G & A).
  destruct (answer_stops n r s _ api args kwargs t i F G A R) as (c & K & H).
  destruct (or_default n args kwargs t R S "train" "(True)" train ltac:(discriminate) T) as (w & W & WT).
  pose proof (got n args kwargs t R "root" root ltac:(discriminate) P) as Y.
  destruct (mnist_runs c (start t) None i false api _ w K Y W) as (m & a & b & E & D1 & D2 & D3).
  destruct (H _ E) as (q & u & Q & L). rewrite render_one, WT, C in *.
  exists q, u, (texts (dset String.eqb "label_path" b (dset String.eqb "image_path" a (ddel String.eqb "root" (dset String.eqb "mode" m (ddel String.eqb "train" (start t))))))), (render m), (render a), (render b).
  split; [exact Q|]. split; [exact L|]. split; [apply made_mnist; [exact (keys_once n args kwargs t R S)|exact S]|].
  split; [exact D1|split; [exact D2|exact D3]].
Qed.
Print Assumptions C139_handwritten_digits.

(** CIFAR10 and CIFAR100: the archive lies below the root, the mode follows the argument train. *)
Theorem C139_small_images :
  forall n api file args kwargs t root train i,
    In (n, (api, file)) [("torchvision.datasets.CIFAR10", ("paddle.vision.datasets.Cifar10", "cifar-10-python.tar.gz"));
                         ("torchvision.datasets.CIFAR100", ("paddle.vision.datasets.Cifar100", "cifar-100-python.tar.gz"))] ->
    reads_as n args kwargs t -> (forall w, ~ In (None, w) t) ->
    passes t "root" root -> passes t "train" train ->
    exists q u l mode,
      answer n None args kwargs i = Some (Ret (Converted q u)) /\
      render q = String nl "import os" ++ String nl "" ++ call_of api l ++ String nl "" /\
      made_of l t ["train"; "root"] [("data_file", below root file); ("mode", mode)] /\
      decides (py_strip train) "'train'" "'test'" mode.
Proof.
  intros n api file args kwargs t root train i I R S P T. destruct (cifar_rows _ _ _ I) as (C & s & r & F & G & A).
  destruct (answer_stops n r s _ api args kwargs t i F G A R) as (c & K & H).
  pose proof (got n args kwargs t R "root" root ltac:(discriminate) P) as Y.
  pose proof (got n args kwargs t R "train" train ltac:(discriminate) T) as W.
  destruct (cifar_train c (start t) None i false api _ _ K Y W) as (m & a & E & D1 & D2).
  destruct (H _ E) as (q & u & Q & L). rewrite !render_one, C in *.
  exists q, u, (texts (dset String.eqb "mode" m (ddel String.eqb "train" (dset String.eqb "data_file" a (ddel String.eqb "root" (start t)))))), (render m).
  split; [exact Q|]. split; [exact L|]. split; [|exact D1]. rewrite <- D2. apply made_cifar_train; [exact (keys_once n args kwargs t R S)|exact S].
Qed.
Print Assumptions C139_small_images.
(** ... and without it the mode is left to the default. *)
Theorem C139_small_images_default :
  forall n api file args kwargs t root i,
    In (n, (api, file)) [("torchvision.datasets.CIFAR10", ("paddle.vision.datasets.Cifar10", "cifar-10-python.tar.gz"));
                         ("torchvision.datasets.CIFAR100", ("paddle.vision.datasets.Cifar100", "cifar-100-python.tar.gz"))] ->
    reads_as n args kwargs t -> (forall w, ~ In (None, w) t) ->
    passes t "root" root -> (forall w, ~ In (Some "train", w) t) ->
    exists q u l,
      answer n None args kwargs i = Some (Ret (Converted q u)) /\
      render q = String nl "import os" ++ String nl "" ++ call_of api l ++ String nl "" /\
      made_of l t ["root"] [("data_file", below root file)].
Proof.
  intros n api file args kwargs t root i I R S P T. destruct (cifar_rows _ _ _ I) as (C & s & r & F & G & A).
  destruct (answer_stops n r s _ api args kwargs t i F G A R) as (c & K & H).
  pose proof (got n args kwargs t R "root" root ltac:(discriminate) P) as Y.
  pose proof (not_got n args kwargs t R S "train" T) as W.
  destruct (cifar_default c (start t) None i false api _ K Y W) as (a & E & D2).
  destruct (H _ E) as (q & u & Q & L). rewrite !render_one, C in *.
  exists q, u, (texts (dset String.eqb "data_file" a (ddel String.eqb "root" (start t)))).
  split; [exact Q|]. split; [exact L|]. rewrite <- D2. apply made_cifar; [exact (keys_once n args kwargs t R S)|exact S].
Qed.
Print Assumptions C139_small_images_default.

(** Flowers102: the mode is the split under the name Paddle has for it. *)
Theorem C139_flowers :
  forall args kwargs t root part i,
    reads_as "torchvision.datasets.Flowers102" args kwargs t -> (forall w, ~ In (None, w) t) ->
    passes t "root" root -> given_or t "split" """""""train""""""" part ->
    exists q u l mode,
      answer "torchvision.datasets.Flowers102" None args kwargs i = Some (Ret (Converted q u)) /\
      render q = String nl "import os" ++ String nl "" ++ call_of "paddle.vision.datasets.Flowers" l ++ String nl "" /\
      made_of l t ["root"; "split"] [("mode", mode); ("data_file", below root "flowers-102/102flowers.tgz");
                                     ("label_file", below root "flowers-102/imagelabels.mat"); ("setid_file", below root "flowers-102/setid.mat")] /\
      renames part mode.
Proof.
  intros args kwargs t root part i R S P T. destruct flowers_row as (s & r & F & G & A).
  destruct (answer_stops _ r s _ _ args kwargs t i F G A R) as (c & K & H).
  destruct (or_default _ args kwargs t R S "split" _ part ltac:(discriminate) T) as (w & W & WT).
  pose proof (got _ args kwargs t R "root" root ltac:(discriminate) P) as Y.
  destruct (flowers_runs c (start t) None i false _ _ w K Y W) as (m & a & b & e & E & D1 & D2 & D3 & D4).
  destruct (H _ E) as (q & u & Q & L). rewrite ?render_one, WT in *.
  exists q, u, (texts (dset String.eqb "setid_file" e (dset String.eqb "label_file" b (dset String.eqb "data_file" a (ddel String.eqb "root" (dset String.eqb "mode" m (ddel String.eqb "split" (start t)))))))), (render m).
  split; [exact Q|]. split; [exact L|]. split; [|exact D1]. rewrite <- D2, <- D3, <- D4. apply made_flowers; [exact (keys_once _ args kwargs t R S)|exact S].
Qed.
Print Assumptions C139_flowers.

(** FashionMNIST("data", train=flag, transform=t), whose three new arguments depend on the
    variable flag, and a split that is not a literal. *)
Example C139_nonvacuous :
  (exists t, reads_as "torchvision.datasets.FashionMNIST" [MkExpr false true """""""data"""""""]
      [MkKw (Some "train") (MkExpr false false "flag"); MkKw (Some "transform") (MkExpr false false "t")] t /\
    (forall w, ~ In (None, w) t) /\ passes t "root" """""""data""""""" /\ given_or t "train" "(True)" "flag" /\ passes t "transform" "t") /\
  (exists t, reads_as "torchvision.datasets.Flowers102" [MkExpr false true """""""data"""""""; MkExpr false false "part"] [] t /\
    (forall w, ~ In (None, w) t) /\ passes t "root" """""""data""""""" /\ given_or t "split" """""""train""""""" "part") /\
  (exists t, reads_as "torchvision.datasets.CIFAR10" [MkExpr false true """""""data"""""""; MkExpr false false "(False)"] [] t /\
    (forall w, ~ In (None, w) t) /\ passes t "root" """""""data""""""" /\ passes t "train" "(False)").
Proof.
  assert (X : forall t : table, forallb (fun kv => match fst kv with Some _ => true | None => false end) t = true -> forall w, ~ In (None, w) t).
  { intros t H w I. rewrite forallb_forall in H. specialize (H _ I). discriminate H. }
  split; [|split]; eexists.
  - split; [eexists; split; [vm_compute; reflexivity|vm_compute; reflexivity]|]. split; [apply X; reflexivity|]. split; [left; reflexivity|]. split; [left; right; left; reflexivity|right; right; left; reflexivity].
  - split; [eexists; split; [vm_compute; reflexivity|vm_compute; reflexivity]|]. split; [apply X; reflexivity|]. split; [left; reflexivity|left; right; left; reflexivity].
  - split; [eexists; split; [vm_compute; reflexivity|vm_compute; reflexivity]|]. split; [apply X; reflexivity|]. split; [left; reflexivity|right; left; reflexivity].
Qed.
