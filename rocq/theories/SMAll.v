(** Generated by tools/translate.py: all process classes. *)
From Verif Require Import Base Lang.
From Verif Require Export SMNames SM01 SM02 SM03 SM04 SM05 SM06 SM07 SM08 SM09 SM10 SM11 SM12 SMUser.

Definition sm_classes : list cls :=
  SM01_classes ++
  SM02_classes ++
  SM03_classes ++
  SM04_classes ++
  SM05_classes ++
  SM06_classes ++
  SM07_classes ++
  SM08_classes ++
  SM09_classes ++
  SM10_classes ++
  SM11_classes ++
  SM12_classes ++
  SMUser_classes.
