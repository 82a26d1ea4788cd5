(** converter.py:130-304: what [run] writes into the log after the conversion.  Definitions
    only.  Not here: the Excel files, the speed. *)
From Coq Require Import ZArith QArith.
From Verif Require Import PyStr PyDict Ast BasicPass Converter Helpers.
Open Scope string_scope.

(** utils.py:200-219 [log_warning], [log_info]: the level of a message and its text. *)
Inductive level := Info | Warning.
Definition message := (level * string)%type.
(** main.py:71-77, converter.py:77: [--log_level].  [logging] drops what is below it; DEBUG and
    INFO are the same here. *)
Definition shown (at_least : level) (l : list message) : list string :=
  map snd (filter (fun m => match at_least, fst m with Warning, Info => false | _, _ => true end) l).

(** converter.py:60-62 *)
Record report_options := MkReport {
  show_all_api : bool;
  show_unalign_api : bool;
  show_unsupport_api : bool;
  log_markdown : bool
}.

(** "{:<n}".format(s) *)
Fixpoint blanks (n : nat) : string := match n with O => "" | S n => String " "%char (blanks n) end.
Definition left_aligned (n : nat) (s : string) : string := s ++ blanks (n - String.length s).

(** sorted(l, key=count, reverse=True), which is stable. *)
Fixpoint insert_by {A} (count : A -> nat) (x : A) (l : list A) : list A :=
  match l with
  | [] => [x]
  | y :: r => if (count x <? count y)%nat then y :: insert_by count x r else x :: l
  end.
Definition sorted_by {A} (count : A -> nat) (l : list A) : list A := fold_right (insert_by count) [] l.

(** converter.py:131-133, 159-161, 200-202 *)
Definition heading (title : string) : list message :=
  [(Info, nls ++ "==========================================="); (Info, title); (Info, "===========================================")].
(** converter.py:146-149, 186-189 *)
Definition api_line (kv : string * (string * nat)) : string :=
  left_aligned 80 (fst kv) ++ left_aligned 80 (fst (snd kv)) ++ left_aligned 8 (nat_to_str (snd (snd kv))).
(** converter.py:218-219 *)
Definition unsupported_line (kv : string * nat) : string := left_aligned 80 (fst kv) ++ left_aligned 8 (nat_to_str (snd kv)).
(** converter.py:130-157 *)
Definition all_api_list (all : dict string (string * nat)) : list message :=
  heading "ALL API List:" ++
  match all with
  | [] => [(Info, "There is no API need to convert.")]
  | _ => (Info, "All APIs to be converted are as follows." ++ nls) :: map (fun kv => (Info, api_line kv)) (sorted_by (fun kv => snd (snd kv)) all)
  end.
(** converter.py:158-197 *)
Definition unalign_api_list (all : dict string (string * nat)) : res (list message) :=
  let* d := unaligned change_prefix_apis all in
  Ok (heading "UnAlign Native Pytorch API List:" ++
      match d with
      | [] => [(Info, "Congratulations! All Native Pytorch APIs are already aligned!")]
      | _ => (Info, "These Native Pytorch APIs are still not fully aligned!" ++ nls)%string :: map (fun kv => (Info, api_line kv)) (sorted_by (fun kv => snd (snd kv)) d)
      end)%list.
(** converter.py:199-224 *)
Definition unsupport_api_list (un : dict string nat) : list message :=
  heading "Not Support API List:" ++
  match un with
  | [] => [(Info, "Congratulations! All APIs have been successfully converted!")]
  | _ => (Info, "These Pytorch APIs are not supported to convert to Paddle automatically now!" ++ nls) :: map (fun kv => (Info, unsupported_line kv)) (sorted_by snd un)
  end.

(** The nearest integer, the even one of two. *)
Definition nearest (q : Q) : Z :=
  let d := Zpos (Qden q) in
  let f := (Qnum q / d)%Z in
  let r := (2 * (Qnum q mod d))%Z in
  if (r <? d)%Z then f else if (d <? r)%Z then (f + 1)%Z else if Z.even f then f else (f + 1)%Z.
(** [n] hundredths of a percent, written with two decimals; for [n >= 0]. *)
Definition two_decimals (n : Z) : string :=
  int_to_str (n / 100) ++ "." ++ String (digit (Z.to_nat (n / 10 mod 10))) (String (digit (Z.to_nat (n mod 10))) "%").

Section Report.
(** The rounding of floating point arithmetic. *)
Variable round : Q -> Q.
(** converter.py:82, 249-250, 274-275: [self.convert_rate], a floating point number *)
Definition float_rate {M} (c : conv M) : Q :=
  if (0 <? c_torch c)%Z then round (c_success c # Z.to_pos (c_torch c)) else 0.
(** "{:.2%}".format(x): Python multiplies by 100 and rounds the product correctly. *)
Definition percent (x : Q) : string := two_decimals (nearest (round (x * 100) * 100)).

(** converter.py:226-272 *)
Definition summary_lines {M} (c : conv M) : list message :=
  let failed := (c_torch c - c_success c)%Z in
  [(Warning, nls ++ "==========================================="); (Warning, "Convert Summary"); (Warning, "===========================================");
   (Warning, "There are " ++ int_to_str (c_torch c) ++ " Pytorch APIs in this Project:");
   (Warning, " " ++ int_to_str (c_success c) ++ "  Pytorch APIs have been converted to Paddle successfully!");
   (Warning, " " ++ int_to_str failed ++ "  Pytorch APIs are not supported to convert to Paddle currently!");
   (Warning, " Convert Rate is: " ++ percent (float_rate c))] ++
  (if (0 <? failed)%Z then
     [(Warning, nls ++ "For these " ++ int_to_str failed ++ " Pytorch APIs that currently do not support to convert, which have been marked by >>> before the line, " ++ nls ++
        "please refer to [https://www.paddlepaddle.org.cn/documentation/docs/zh/develop/guides/model_convert/convert_from_pytorch/pytorch_api_mapping_cn.html] " ++ nls ++
        "and convert it by yourself manually. In addition, these APIs will be supported in future.")]
   else []) ++
  [(Warning, nls ++ "Thank you to use Paddle Code Convert Tool. You can make any suggestions " ++ nls ++
      "to us by submitting issues to [https://github.com/PaddlePaddle/PaConvert]." ++ nls)].
(** converter.py:273-302 *)
Definition markdown_lines {M} (c : conv M) : list message :=
  let failed := (c_torch c - c_success c)%Z in
  [(Warning, "# 转换总结");
   (Warning, "总计有 " ++ int_to_str (c_torch c) ++ " 行Pytorch代码需要被转换，整体转换率是 " ++ percent (float_rate c) ++ "，数据如下：");
   (Warning, "* " ++ int_to_str (c_success c) ++ " 行Pytorch 代码被成功转换为飞桨");
   (Warning, "* " ++ int_to_str failed ++ " 行Pytorch 代码暂时不支持自动转换为飞桨，因为飞桨不支持该功能，请手动转换")] ++
  (if (0 <? failed)%Z then
     [(Warning, nls ++ "对于这" ++ int_to_str failed ++ "行未转换的Pytorch代码，已经在行前通过 >>>>>> 标记，请参考[Pytorch-Paddle API映射表]" ++
        "(https://www.paddlepaddle.org.cn/documentation/docs/zh/develop/guides/model_convert/convert_from_pytorch/pytorch_api_mapping_cn.html)来手工转换。" ++
        "未来飞桨完善此部分功能后，这些API将被支持自动转换。" ++ nls)]
   else []).
(** converter.py:130-302.  Simplification: if the table of the unaligned APIs raises an
    exception, the messages before it are lost. *)
Definition report {M} (o : report_options) (c : conv M) : res (list message) :=
  let* u := if show_unalign_api o then unalign_api_list (c_all c) else Ok [] in
  Ok ((if show_all_api o then all_api_list (c_all c) else []) ++ u ++
      (if show_unsupport_api o then unsupport_api_list (c_unsupported c) else []) ++
      (if log_markdown o then markdown_lines c else summary_lines c))%list.
End Report.
