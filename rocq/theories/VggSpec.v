(** Words for C145: models of the VGG family. *)
From Verif Require Import PyStr PyDict Args FlagSpec.

(** A model, the Paddle function that makes it, and whether it has batch normalization. *)
Definition vgg_family : list (string * string * string) :=
  [("torchvision.models.vgg11", "paddle.vision.models.vgg11", "False"); ("torchvision.models.vgg11_bn", "paddle.vision.models.vgg11", "True");
   ("torchvision.models.vgg13", "paddle.vision.models.vgg13", "False"); ("torchvision.models.vgg13_bn", "paddle.vision.models.vgg13", "True");
   ("torchvision.models.vgg16", "paddle.vision.models.vgg16", "False"); ("torchvision.models.vgg16_bn", "paddle.vision.models.vgg16", "True");
   ("torchvision.models.vgg19", "paddle.vision.models.vgg19", "False"); ("torchvision.models.vgg19_bn", "paddle.vision.models.vgg19", "True")].
(** Weights are asked for by any text but None. *)
Definition weights_asked (t : table) : Prop := exists v, passes t "weights" v /\ v <> "None" /\ v <> "".
(** What a call says about weights: the new arguments beside batch_norm. *)
Definition pretrained_as (t : table) (new : list (string * string)) : Prop :=
  (weights_asked t /\ new = [("pretrained", "True")]) \/ (~ weights_asked t /\ new = []).
