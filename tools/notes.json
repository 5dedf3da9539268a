{
 "C05": {"status": "proved", "note": "Proved for non-empty channel names; C05_empty_name_refuted shows the stated exception is real (rtcg-read-traces accepts '.in.3', rtcg-make-stms rejects what it writes)."},
 "C38": {"status": "proved", "note": "Kinds, outcomes, types; also the two non-ASCII letters that Go lower-cases to ASCII are modelled."}
}
