(** The texts of the timeframes of a time dimension group as tokens (core/model/field.py:1013-1468): the trees of
    Timeframe_Model and Week_Model with the text of the dimension's sql, already replaced (field.py:496-515, 538-582), put where
    the code puts it.  A function with its constant arguments, and a CASE on the operand, is one call: it encloses its
    operand.  AT TIME ZONE is an operator of the level of products here. *)
From Coq Require Import List String Bool Arith ZArith.
From Verif Require Import PyBase PyStr Prec_Model Timeframe_Model Week_Model.
Import ListNotations.
Local Open Scope string_scope.
Local Open Scope list_scope.

Definition enclose (f : string) (t : list tok) : list tok := TCall f :: t ++ [TClose].
Section Frames.
  Variable tz : string.
  (** the function is named by its own text, with # for the operand *)
  Definition named (x : texpr) : string := render tz "#" x.
  (** 1014-1382 *)
  Fixpoint frame_text (s : list tok) (x : texpr) : list tok :=
    match x with
    | XCol => s
    | XInterval e n => frame_text s e ++ [TOp (OAdd "+"); TAtom ("INTERVAL '" ++ Timeframe_Model.z_str n ++ "' MONTH")%string]
    | XAtZone e => (frame_text s e ++ [TOp (OMul "at time zone"); TAtom "'UTC'"]) ++ [TOp (OMul "at time zone"); TAtom ("'" ++ tz ++ "'")%string]
    | XCast e ty => enclose (named (XCast XCol ty)) (frame_text s e)
    | XTrunc p e => enclose (named (XTrunc p XCol)) (frame_text s e)
    | XDateTrunc e p => enclose (named (XDateTrunc XCol p)) (frame_text s e)
    | XDatetimeTrunc e p => enclose (named (XDatetimeTrunc XCol p)) (frame_text s e)
    | XAddDiff p e => enclose (named (XAddDiff p XCol)) (frame_text s e)
    | XExtract p e => enclose (named (XExtract p XCol)) (frame_text s e)
    | XDatepart p e => enclose (named (XDatepart p XCol)) (frame_text s e)
    | XToChar e f => enclose (named (XToChar XCol f)) (frame_text s e)
    | XDateFormat e f => enclose (named (XDateFormat XCol f)) (frame_text s e)
    | XFormatDatetime e f => enclose (named (XFormatDatetime XCol f)) (frame_text s e)
    | XFormatFirst f e => enclose (named (XFormatFirst f XCol)) (frame_text s e)
    | XCastFormat e f => enclose (named (XCastFormat XCol f)) (frame_text s e)
    | XLeftName p e => enclose (named (XLeftName p XCol)) (frame_text s e)
    | XCase e l d => enclose (named (XCase XCol l d)) (frame_text s e)
    | XDateadd n e => enclose (named (XDateadd n XCol)) (frame_text s e)
    | XDateAdd e n => enclose (named (XDateAdd XCol n)) (frame_text s e)
    | XConvert e => enclose (named (XConvert XCol)) (frame_text s e)
    | XDatetimeZone e => enclose (named (XDatetimeZone XCol)) (frame_text s e)
    end.
End Frames.

Definition unit_name (u : unit_) : string := match u with UDay => "DAY" | UWeek => "WEEK" | UMonth => "MONTH" end.
Definition sign (n : Z) : string := if (n <? 0)%Z then "-" else "+".
Definition digits (n : Z) : string := nat_str (Z.abs_nat n).
(** 1384-1468; DATE_TRUNC is written with the unit first, as in every warehouse but bigquery *)
Fixpoint week_text (s : list tok) (x : dexpr) : list tok :=
  match x with
  | DCol => s
  | DCastDate e => enclose "CAST(# AS DATE)" (week_text s e)
  | DCastTs e => enclose "CAST(# AS TIMESTAMP)" (week_text s e)
  | DPlus e n => week_text s e ++ [TOp (OAdd (sign n)); TAtom (digits n)]
  | DPlusInterval e n => week_text s e ++ [TOp (OAdd (sign n)); TAtom ("INTERVAL '" ++ digits n ++ "' DAY")%string]
  | DTrunc u e => enclose ("DATE_TRUNC('" ++ unit_name u ++ "', #)")%string (week_text s e)
  | DAdd u n e => enclose ("DATEADD(" ++ unit_name u ++ ", " ++ Timeframe_Model.z_str n ++ ", #)")%string (week_text s e)
  | DAddDiff u e => enclose ("DATEADD(" ++ unit_name u ++ ", DATEDIFF(" ++ unit_name u ++ ", 0, #), 0)")%string (week_text s e)
  | DWeekNo e => enclose "EXTRACT(WEEK FROM #)" (week_text s e)
  | DMinusPlus1 a b => (week_text s a ++ TOp (OAdd "-") :: week_text s b) ++ [TOp (OAdd "+"); TAtom "1"]
  end.
