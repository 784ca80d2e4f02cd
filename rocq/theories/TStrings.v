(* Generated by tools/gen_tables.py: a literal transcription, no computation. *)
From Coq Require Import List NArith ZArith String.
Import ListNotations.
Local Open Scope string_scope.
Local Open Scope list_scope.
Definition INDEX_TO_HAND_0 : list (list string) := [
["AsAh";"AsAc";"AsAd";"AhAc";"AhAd";"AcAd";"KsKh";"KsKc";"KsKd";"KhKc";"KhKd";"KcKd";"QsQh";"QsQc";"QsQd";"QhQc"];
["QhQd";"QcQd";"JsJh";"JsJc";"JsJd";"JhJc";"JhJd";"JcJd";"TsTh";"TsTc";"TsTd";"ThTc";"ThTd";"TcTd";"9s9h";"9s9c"];
["9s9d";"9h9c";"9h9d";"9c9d";"8s8h";"8s8c";"8s8d";"8h8c";"8h8d";"8c8d";"7s7h";"7s7c";"7s7d";"7h7c";"7h7d";"7c7d"];
["6s6h";"6s6c";"6s6d";"6h6c";"6h6d";"6c6d";"5s5h";"5s5c";"5s5d";"5h5c";"5h5d";"5c5d";"4s4h";"4s4c";"4s4d";"4h4c"];
["4h4d";"4c4d";"3s3h";"3s3c";"3s3d";"3h3c";"3h3d";"3c3d";"2s2h";"2s2c";"2s2d";"2h2c";"2h2d";"2c2d";"AsKs";"AhKh"];
["AcKc";"AdKd";"AsQs";"AhQh";"AcQc";"AdQd";"AsJs";"AhJh";"AcJc";"AdJd";"AsTs";"AhTh";"AcTc";"AdTd";"As9s";"Ah9h"];
["Ac9c";"Ad9d";"As8s";"Ah8h";"Ac8c";"Ad8d";"As7s";"Ah7h";"Ac7c";"Ad7d";"As6s";"Ah6h";"Ac6c";"Ad6d";"As5s";"Ah5h"];
["Ac5c";"Ad5d";"As4s";"Ah4h";"Ac4c";"Ad4d";"As3s";"Ah3h";"Ac3c";"Ad3d";"As2s";"Ah2h";"Ac2c";"Ad2d";"KsQs";"KhQh"];
["KcQc";"KdQd";"KsJs";"KhJh";"KcJc";"KdJd";"KsTs";"KhTh";"KcTc";"KdTd";"Ks9s";"Kh9h";"Kc9c";"Kd9d";"Ks8s";"Kh8h"];
["Kc8c";"Kd8d";"Ks7s";"Kh7h";"Kc7c";"Kd7d";"Ks6s";"Kh6h";"Kc6c";"Kd6d";"Ks5s";"Kh5h";"Kc5c";"Kd5d";"Ks4s";"Kh4h"];
["Kc4c";"Kd4d";"Ks3s";"Kh3h";"Kc3c";"Kd3d";"Ks2s";"Kh2h";"Kc2c";"Kd2d";"QsJs";"QhJh";"QcJc";"QdJd";"QsTs";"QhTh"];
["QcTc";"QdTd";"Qs9s";"Qh9h";"Qc9c";"Qd9d";"Qs8s";"Qh8h";"Qc8c";"Qd8d";"Qs7s";"Qh7h";"Qc7c";"Qd7d";"Qs6s";"Qh6h"];
["Qc6c";"Qd6d";"Qs5s";"Qh5h";"Qc5c";"Qd5d";"Qs4s";"Qh4h";"Qc4c";"Qd4d";"Qs3s";"Qh3h";"Qc3c";"Qd3d";"Qs2s";"Qh2h"];
["Qc2c";"Qd2d";"JsTs";"JhTh";"JcTc";"JdTd";"Js9s";"Jh9h";"Jc9c";"Jd9d";"Js8s";"Jh8h";"Jc8c";"Jd8d";"Js7s";"Jh7h"];
["Jc7c";"Jd7d";"Js6s";"Jh6h";"Jc6c";"Jd6d";"Js5s";"Jh5h";"Jc5c";"Jd5d";"Js4s";"Jh4h";"Jc4c";"Jd4d";"Js3s";"Jh3h"];
["Jc3c";"Jd3d";"Js2s";"Jh2h";"Jc2c";"Jd2d";"Ts9s";"Th9h";"Tc9c";"Td9d";"Ts8s";"Th8h";"Tc8c";"Td8d";"Ts7s";"Th7h"];
["Tc7c";"Td7d";"Ts6s";"Th6h";"Tc6c";"Td6d";"Ts5s";"Th5h";"Tc5c";"Td5d";"Ts4s";"Th4h";"Tc4c";"Td4d";"Ts3s";"Th3h"];
["Tc3c";"Td3d";"Ts2s";"Th2h";"Tc2c";"Td2d";"9s8s";"9h8h";"9c8c";"9d8d";"9s7s";"9h7h";"9c7c";"9d7d";"9s6s";"9h6h"];
["9c6c";"9d6d";"9s5s";"9h5h";"9c5c";"9d5d";"9s4s";"9h4h";"9c4c";"9d4d";"9s3s";"9h3h";"9c3c";"9d3d";"9s2s";"9h2h"];
["9c2c";"9d2d";"8s7s";"8h7h";"8c7c";"8d7d";"8s6s";"8h6h";"8c6c";"8d6d";"8s5s";"8h5h";"8c5c";"8d5d";"8s4s";"8h4h"];
["8c4c";"8d4d";"8s3s";"8h3h";"8c3c";"8d3d";"8s2s";"8h2h";"8c2c";"8d2d";"7s6s";"7h6h";"7c6c";"7d6d";"7s5s";"7h5h"];
["7c5c";"7d5d";"7s4s";"7h4h";"7c4c";"7d4d";"7s3s";"7h3h";"7c3c";"7d3d";"7s2s";"7h2h";"7c2c";"7d2d";"6s5s";"6h5h"];
["6c5c";"6d5d";"6s4s";"6h4h";"6c4c";"6d4d";"6s3s";"6h3h";"6c3c";"6d3d";"6s2s";"6h2h";"6c2c";"6d2d";"5s4s";"5h4h"];
["5c4c";"5d4d";"5s3s";"5h3h";"5c3c";"5d3d";"5s2s";"5h2h";"5c2c";"5d2d";"4s3s";"4h3h";"4c3c";"4d3d";"4s2s";"4h2h"];
["4c2c";"4d2d";"3s2s";"3h2h";"3c2c";"3d2d";"AsKh";"AsKc";"AsKd";"AhKs";"AhKc";"AhKd";"AcKs";"AcKh";"AcKd";"AdKs"];
["AdKh";"AdKc";"AsQh";"AsQc";"AsQd";"AhQs";"AhQc";"AhQd";"AcQs";"AcQh";"AcQd";"AdQs";"AdQh";"AdQc";"AsJh";"AsJc"];
["AsJd";"AhJs";"AhJc";"AhJd";"AcJs";"AcJh";"AcJd";"AdJs";"AdJh";"AdJc";"AsTh";"AsTc";"AsTd";"AhTs";"AhTc";"AhTd"];
["AcTs";"AcTh";"AcTd";"AdTs";"AdTh";"AdTc";"As9h";"As9c";"As9d";"Ah9s";"Ah9c";"Ah9d";"Ac9s";"Ac9h";"Ac9d";"Ad9s"];
["Ad9h";"Ad9c";"As8h";"As8c";"As8d";"Ah8s";"Ah8c";"Ah8d";"Ac8s";"Ac8h";"Ac8d";"Ad8s";"Ad8h";"Ad8c";"As7h";"As7c"];
["As7d";"Ah7s";"Ah7c";"Ah7d";"Ac7s";"Ac7h";"Ac7d";"Ad7s";"Ad7h";"Ad7c";"As6h";"As6c";"As6d";"Ah6s";"Ah6c";"Ah6d"];
["Ac6s";"Ac6h";"Ac6d";"Ad6s";"Ad6h";"Ad6c";"As5h";"As5c";"As5d";"Ah5s";"Ah5c";"Ah5d";"Ac5s";"Ac5h";"Ac5d";"Ad5s"];
["Ad5h";"Ad5c";"As4h";"As4c";"As4d";"Ah4s";"Ah4c";"Ah4d";"Ac4s";"Ac4h";"Ac4d";"Ad4s";"Ad4h";"Ad4c";"As3h";"As3c"];
["As3d";"Ah3s";"Ah3c";"Ah3d";"Ac3s";"Ac3h";"Ac3d";"Ad3s";"Ad3h";"Ad3c";"As2h";"As2c";"As2d";"Ah2s";"Ah2c";"Ah2d"];
["Ac2s";"Ac2h";"Ac2d";"Ad2s";"Ad2h";"Ad2c";"KsQh";"KsQc";"KsQd";"KhQs";"KhQc";"KhQd";"KcQs";"KcQh";"KcQd";"KdQs"];
["KdQh";"KdQc";"KsJh";"KsJc";"KsJd";"KhJs";"KhJc";"KhJd";"KcJs";"KcJh";"KcJd";"KdJs";"KdJh";"KdJc";"KsTh";"KsTc"];
["KsTd";"KhTs";"KhTc";"KhTd";"KcTs";"KcTh";"KcTd";"KdTs";"KdTh";"KdTc";"Ks9h";"Ks9c";"Ks9d";"Kh9s";"Kh9c";"Kh9d"];
["Kc9s";"Kc9h";"Kc9d";"Kd9s";"Kd9h";"Kd9c";"Ks8h";"Ks8c";"Ks8d";"Kh8s";"Kh8c";"Kh8d";"Kc8s";"Kc8h";"Kc8d";"Kd8s"];
["Kd8h";"Kd8c";"Ks7h";"Ks7c";"Ks7d";"Kh7s";"Kh7c";"Kh7d";"Kc7s";"Kc7h";"Kc7d";"Kd7s";"Kd7h";"Kd7c";"Ks6h";"Ks6c"];
["Ks6d";"Kh6s";"Kh6c";"Kh6d";"Kc6s";"Kc6h";"Kc6d";"Kd6s";"Kd6h";"Kd6c";"Ks5h";"Ks5c";"Ks5d";"Kh5s";"Kh5c";"Kh5d"];
["Kc5s";"Kc5h";"Kc5d";"Kd5s";"Kd5h";"Kd5c";"Ks4h";"Ks4c";"Ks4d";"Kh4s";"Kh4c";"Kh4d";"Kc4s";"Kc4h";"Kc4d";"Kd4s"];
["Kd4h";"Kd4c";"Ks3h";"Ks3c";"Ks3d";"Kh3s";"Kh3c";"Kh3d";"Kc3s";"Kc3h";"Kc3d";"Kd3s";"Kd3h";"Kd3c";"Ks2h";"Ks2c"];
["Ks2d";"Kh2s";"Kh2c";"Kh2d";"Kc2s";"Kc2h";"Kc2d";"Kd2s";"Kd2h";"Kd2c";"QsJh";"QsJc";"QsJd";"QhJs";"QhJc";"QhJd"];
["QcJs";"QcJh";"QcJd";"QdJs";"QdJh";"QdJc";"QsTh";"QsTc";"QsTd";"QhTs";"QhTc";"QhTd";"QcTs";"QcTh";"QcTd";"QdTs"];
["QdTh";"QdTc";"Qs9h";"Qs9c";"Qs9d";"Qh9s";"Qh9c";"Qh9d";"Qc9s";"Qc9h";"Qc9d";"Qd9s";"Qd9h";"Qd9c";"Qs8h";"Qs8c"];
["Qs8d";"Qh8s";"Qh8c";"Qh8d";"Qc8s";"Qc8h";"Qc8d";"Qd8s";"Qd8h";"Qd8c";"Qs7h";"Qs7c";"Qs7d";"Qh7s";"Qh7c";"Qh7d"];
["Qc7s";"Qc7h";"Qc7d";"Qd7s";"Qd7h";"Qd7c";"Qs6h";"Qs6c";"Qs6d";"Qh6s";"Qh6c";"Qh6d";"Qc6s";"Qc6h";"Qc6d";"Qd6s"];
["Qd6h";"Qd6c";"Qs5h";"Qs5c";"Qs5d";"Qh5s";"Qh5c";"Qh5d";"Qc5s";"Qc5h";"Qc5d";"Qd5s";"Qd5h";"Qd5c";"Qs4h";"Qs4c"];
["Qs4d";"Qh4s";"Qh4c";"Qh4d";"Qc4s";"Qc4h";"Qc4d";"Qd4s";"Qd4h";"Qd4c";"Qs3h";"Qs3c";"Qs3d";"Qh3s";"Qh3c";"Qh3d"];
["Qc3s";"Qc3h";"Qc3d";"Qd3s";"Qd3h";"Qd3c";"Qs2h";"Qs2c";"Qs2d";"Qh2s";"Qh2c";"Qh2d";"Qc2s";"Qc2h";"Qc2d";"Qd2s"];
["Qd2h";"Qd2c";"JsTh";"JsTc";"JsTd";"JhTs";"JhTc";"JhTd";"JcTs";"JcTh";"JcTd";"JdTs";"JdTh";"JdTc";"Js9h";"Js9c"];
["Js9d";"Jh9s";"Jh9c";"Jh9d";"Jc9s";"Jc9h";"Jc9d";"Jd9s";"Jd9h";"Jd9c";"Js8h";"Js8c";"Js8d";"Jh8s";"Jh8c";"Jh8d"];
["Jc8s";"Jc8h";"Jc8d";"Jd8s";"Jd8h";"Jd8c";"Js7h";"Js7c";"Js7d";"Jh7s";"Jh7c";"Jh7d";"Jc7s";"Jc7h";"Jc7d";"Jd7s"];
["Jd7h";"Jd7c";"Js6h";"Js6c";"Js6d";"Jh6s";"Jh6c";"Jh6d";"Jc6s";"Jc6h";"Jc6d";"Jd6s";"Jd6h";"Jd6c";"Js5h";"Js5c"];
["Js5d";"Jh5s";"Jh5c";"Jh5d";"Jc5s";"Jc5h";"Jc5d";"Jd5s";"Jd5h";"Jd5c";"Js4h";"Js4c";"Js4d";"Jh4s";"Jh4c";"Jh4d"];
["Jc4s";"Jc4h";"Jc4d";"Jd4s";"Jd4h";"Jd4c";"Js3h";"Js3c";"Js3d";"Jh3s";"Jh3c";"Jh3d";"Jc3s";"Jc3h";"Jc3d";"Jd3s"];
["Jd3h";"Jd3c";"Js2h";"Js2c";"Js2d";"Jh2s";"Jh2c";"Jh2d";"Jc2s";"Jc2h";"Jc2d";"Jd2s";"Jd2h";"Jd2c";"Ts9h";"Ts9c"];
["Ts9d";"Th9s";"Th9c";"Th9d";"Tc9s";"Tc9h";"Tc9d";"Td9s";"Td9h";"Td9c";"Ts8h";"Ts8c";"Ts8d";"Th8s";"Th8c";"Th8d"];
["Tc8s";"Tc8h";"Tc8d";"Td8s";"Td8h";"Td8c";"Ts7h";"Ts7c";"Ts7d";"Th7s";"Th7c";"Th7d";"Tc7s";"Tc7h";"Tc7d";"Td7s"];
["Td7h";"Td7c";"Ts6h";"Ts6c";"Ts6d";"Th6s";"Th6c";"Th6d";"Tc6s";"Tc6h";"Tc6d";"Td6s";"Td6h";"Td6c";"Ts5h";"Ts5c"];
["Ts5d";"Th5s";"Th5c";"Th5d";"Tc5s";"Tc5h";"Tc5d";"Td5s";"Td5h";"Td5c";"Ts4h";"Ts4c";"Ts4d";"Th4s";"Th4c";"Th4d"];
["Tc4s";"Tc4h";"Tc4d";"Td4s";"Td4h";"Td4c";"Ts3h";"Ts3c";"Ts3d";"Th3s";"Th3c";"Th3d";"Tc3s";"Tc3h";"Tc3d";"Td3s"];
["Td3h";"Td3c";"Ts2h";"Ts2c";"Ts2d";"Th2s";"Th2c";"Th2d";"Tc2s";"Tc2h";"Tc2d";"Td2s";"Td2h";"Td2c";"9s8h";"9s8c"];
["9s8d";"9h8s";"9h8c";"9h8d";"9c8s";"9c8h";"9c8d";"9d8s";"9d8h";"9d8c";"9s7h";"9s7c";"9s7d";"9h7s";"9h7c";"9h7d"];
["9c7s";"9c7h";"9c7d";"9d7s";"9d7h";"9d7c";"9s6h";"9s6c";"9s6d";"9h6s";"9h6c";"9h6d";"9c6s";"9c6h";"9c6d";"9d6s"];
["9d6h";"9d6c";"9s5h";"9s5c";"9s5d";"9h5s";"9h5c";"9h5d";"9c5s";"9c5h";"9c5d";"9d5s";"9d5h";"9d5c";"9s4h";"9s4c"];
["9s4d";"9h4s";"9h4c";"9h4d";"9c4s";"9c4h";"9c4d";"9d4s";"9d4h";"9d4c";"9s3h";"9s3c";"9s3d";"9h3s";"9h3c";"9h3d"];
["9c3s";"9c3h";"9c3d";"9d3s";"9d3h";"9d3c";"9s2h";"9s2c";"9s2d";"9h2s";"9h2c";"9h2d";"9c2s";"9c2h";"9c2d";"9d2s"];
["9d2h";"9d2c";"8s7h";"8s7c";"8s7d";"8h7s";"8h7c";"8h7d";"8c7s";"8c7h";"8c7d";"8d7s";"8d7h";"8d7c";"8s6h";"8s6c"];
["8s6d";"8h6s";"8h6c";"8h6d";"8c6s";"8c6h";"8c6d";"8d6s";"8d6h";"8d6c";"8s5h";"8s5c";"8s5d";"8h5s";"8h5c";"8h5d"];
["8c5s";"8c5h";"8c5d";"8d5s";"8d5h";"8d5c";"8s4h";"8s4c";"8s4d";"8h4s";"8h4c";"8h4d";"8c4s";"8c4h";"8c4d";"8d4s"];
["8d4h";"8d4c";"8s3h";"8s3c";"8s3d";"8h3s";"8h3c";"8h3d";"8c3s";"8c3h";"8c3d";"8d3s";"8d3h";"8d3c";"8s2h";"8s2c"];
["8s2d";"8h2s";"8h2c";"8h2d";"8c2s";"8c2h";"8c2d";"8d2s";"8d2h";"8d2c";"7s6h";"7s6c";"7s6d";"7h6s";"7h6c";"7h6d"];
["7c6s";"7c6h";"7c6d";"7d6s";"7d6h";"7d6c";"7s5h";"7s5c";"7s5d";"7h5s";"7h5c";"7h5d";"7c5s";"7c5h";"7c5d";"7d5s"];
["7d5h";"7d5c";"7s4h";"7s4c";"7s4d";"7h4s";"7h4c";"7h4d";"7c4s";"7c4h";"7c4d";"7d4s";"7d4h";"7d4c";"7s3h";"7s3c"];
["7s3d";"7h3s";"7h3c";"7h3d";"7c3s";"7c3h";"7c3d";"7d3s";"7d3h";"7d3c";"7s2h";"7s2c";"7s2d";"7h2s";"7h2c";"7h2d"];
["7c2s";"7c2h";"7c2d";"7d2s";"7d2h";"7d2c";"6s5h";"6s5c";"6s5d";"6h5s";"6h5c";"6h5d";"6c5s";"6c5h";"6c5d";"6d5s"];
["6d5h";"6d5c";"6s4h";"6s4c";"6s4d";"6h4s";"6h4c";"6h4d";"6c4s";"6c4h";"6c4d";"6d4s";"6d4h";"6d4c";"6s3h";"6s3c"];
["6s3d";"6h3s";"6h3c";"6h3d";"6c3s";"6c3h";"6c3d";"6d3s";"6d3h";"6d3c";"6s2h";"6s2c";"6s2d";"6h2s";"6h2c";"6h2d"];
["6c2s";"6c2h";"6c2d";"6d2s";"6d2h";"6d2c";"5s4h";"5s4c";"5s4d";"5h4s";"5h4c";"5h4d";"5c4s";"5c4h";"5c4d";"5d4s"];
["5d4h";"5d4c";"5s3h";"5s3c";"5s3d";"5h3s";"5h3c";"5h3d";"5c3s";"5c3h";"5c3d";"5d3s";"5d3h";"5d3c";"5s2h";"5s2c"];
["5s2d";"5h2s";"5h2c";"5h2d";"5c2s";"5c2h";"5c2d";"5d2s";"5d2h";"5d2c";"4s3h";"4s3c";"4s3d";"4h3s";"4h3c";"4h3d"];
["4c3s";"4c3h";"4c3d";"4d3s";"4d3h";"4d3c";"4s2h";"4s2c";"4s2d";"4h2s";"4h2c";"4h2d";"4c2s";"4c2h";"4c2d";"4d2s"];
["4d2h";"4d2c";"3s2h";"3s2c";"3s2d";"3h2s";"3h2c";"3h2d";"3c2s";"3c2h";"3c2d";"3d2s";"3d2h";"3d2c"]]%string.
(* src/string_lookup.rs:3-1330 INDEX_TO_HAND : [&str; 1326] *)
Definition INDEX_TO_HAND : list string := List.concat (INDEX_TO_HAND_0).
Definition INDEX_TO_COMBO_0 : list (list string) := [
["AA";"KK";"QQ";"JJ";"TT";"99";"88";"77";"66";"55";"44";"33";"22";"AKs";"AQs";"AJs"];
["ATs";"A9s";"A8s";"A7s";"A6s";"A5s";"A4s";"A3s";"A2s";"KQs";"KJs";"KTs";"K9s";"K8s";"K7s";"K6s"];
["K5s";"K4s";"K3s";"K2s";"QJs";"QTs";"Q9s";"Q8s";"Q7s";"Q6s";"Q5s";"Q4s";"Q3s";"Q2s";"JTs";"J9s"];
["J8s";"J7s";"J6s";"J5s";"J4s";"J3s";"J2s";"T9s";"T8s";"T7s";"T6s";"T5s";"T4s";"T3s";"T2s";"98s"];
["97s";"96s";"95s";"94s";"93s";"92s";"87s";"86s";"85s";"84s";"83s";"82s";"76s";"75s";"74s";"73s"];
["72s";"65s";"64s";"63s";"62s";"54s";"53s";"52s";"43s";"42s";"32s";"AKo";"AQo";"AJo";"ATo";"A9o"];
["A8o";"A7o";"A6o";"A5o";"A4o";"A3o";"A2o";"KQo";"KJo";"KTo";"K9o";"K8o";"K7o";"K6o";"K5o";"K4o"];
["K3o";"K2o";"QJo";"QTo";"Q9o";"Q8o";"Q7o";"Q6o";"Q5o";"Q4o";"Q3o";"Q2o";"JTo";"J9o";"J8o";"J7o"];
["J6o";"J5o";"J4o";"J3o";"J2o";"T9o";"T8o";"T7o";"T6o";"T5o";"T4o";"T3o";"T2o";"98o";"97o";"96o"];
["95o";"94o";"93o";"92o";"87o";"86o";"85o";"84o";"83o";"82o";"76o";"75o";"74o";"73o";"72o";"65o"];
["64o";"63o";"62o";"54o";"53o";"52o";"43o";"42o";"32o"]]%string.
(* src/string_lookup.rs:1340-1510 INDEX_TO_COMBO : [&str; 169] *)
Definition INDEX_TO_COMBO : list string := List.concat (INDEX_TO_COMBO_0).
