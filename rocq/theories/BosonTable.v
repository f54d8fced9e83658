(** * Classes with outer bosons: the processes

    For every class the particles of its legs, those that its test (test_... in SM/*.cpp) prints,
    but for AZee, which prints the e+ first.  What else an entry has tells the comparison of the
    amplitudes how to go about it; the statements about the classes do not depend on it. *)
From Coq Require Import List String.
From Verif Require Import Lang SMNames SMAll Feynman BosonSpec BosonCode.
Import ListNotations.
Open Scope string_scope.
Definition boson_entries1 : list bentry :=
  [ BEntry nnZh [Pf Fne; Pa Fne; PZ; Ph] Ke [] false [false; false; true; false] "---" false;
    BEntry nZnh [Pf Fne; PZ; Pf Fne; Ph] K0a0b [] false [false; false; false; false] "+-+" false;
    BEntry hhhh [Ph; Ph; Ph; Ph] Kd [] false [false; false; false; false] "-" false;
    BEntry hguu [Ph; PG; Pf Fu; Pa Fu] Kf [] false [false; false; true; false] "+-+-+-+-" false;
    BEntry hgdd [Ph; PG; Pf Fd; Pa Fd] Kf [] false [false; false; true; false] "-+-+-+-+" false;
    BEntry enWh [Pa Fe; Pf Fne; PWp; Ph] Kg [] false [true; false; true; false] "++++++" false;
    BEntry nZZn [Pf Fne; PZ; PZ; Pf Fne] Kc [] false [false; false; true; false] "---+++---" false;
    BEntry dgdh [Pf Fd; PG; Pf Fd; Ph] Ka0ab [] false [false; false; true; false] "----++++" false;
    BEntry uguh [Pf Fu; PG; Pf Fu; Ph] Ka0ab [] false [false; false; true; false] "----++++" false;
    BEntry dAdh [Pf Fd; PA; Pf Fd; Ph] Ka0ab [] false [false; false; true; false] "----++++" false;
    BEntry uAuh [Pf Fu; PA; Pf Fu; Ph] Ka0ab [] false [false; false; true; false] "----++++" false;
    BEntry guAu [PG; Pf Fu; PA; Pf Fu] Kb [] false [false; false; true; true] "--++++--++----++" false;
    BEntry uuAh [Pf Fu; Pa Fu; PA; Ph] Ke [] false [false; true; true; false] "++++----" false;
    BEntry ddAh [Pf Fd; Pa Fd; PA; Ph] Ke [] false [false; true; true; false] "++++----" false;
    BEntry eeAh [Pf Fe; Pa Fe; PA; Ph] Ke [] false [false; true; true; false] "----++++" false;
    BEntry eAeh [Pf Fe; PA; Pf Fe; Ph] Ka0ab [] false [false; false; true; false] "++++----" false;
    BEntry AAee [PA; PA; Pf Fe; Pa Fe] Ka [] false [false; false; true; false] "-+++-+-+-+-+-+++" false;
    BEntry gAdd [PG; PA; Pf Fd; Pa Fd] Ka [] false [false; false; true; false] "-+++-+-+-+-+-+++" false;
    BEntry gAuu [PG; PA; Pf Fu; Pa Fu] Ka [] false [false; false; true; false] "-+++-+-+-+-+-+++" false;
    BEntry AAdd [PA; PA; Pf Fd; Pa Fd] Ka [] false [false; false; true; false] "-+++-+-+-+-+-+++" false;
    BEntry AAuu [PA; PA; Pf Fu; Pa Fu] Ka [] false [false; false; true; false] "-+++-+-+-+-+-+++" false;
    BEntry eAAe [Pf Fe; PA; PA; Pf Fe] Kc [] false [false; false; true; true] "--++++--++----++" false;
    BEntry dAgd [Pf Fd; PA; PG; Pf Fd] Kc [] false [false; false; true; true] "--++++--++----++" false;
    BEntry dAAd [Pf Fd; PA; PA; Pf Fd] Kc [] false [false; false; true; true] "----++--++++--++" false;
    BEntry uAAu [Pf Fu; PA; PA; Pf Fu] Kc [] false [false; false; true; true] "--++++--++----++" false;
    BEntry eheh [Pf Fe; Ph; Pf Fe; Ph] Kb [] false [false; false; true; false] "--++" false;
    BEntry dhdh [Pf Fd; Ph; Pf Fd; Ph] Kb [] false [false; false; true; false] "--++" false;
    BEntry uhuh [Pf Fu; Ph; Pf Fu; Ph] Kb [] false [false; false; true; false] "--++" false;
    BEntry hnWe [Ph; Pf Fne; PWp; Pf Fe] Kg [] false [false; false; true; true] "------" false;
    BEntry nnZZ [Pf Fne; Pa Fne; PZ; PZ] Ka [] false [false; false; true; true] "+++++++++" false;
    BEntry nWWn [Pf Fne; PWp; PWp; Pf Fne] Kc [n_masse] true [false; false; true; false] "-+--+--+-" false;
    BEntry eehh [Pf Fe; Pa Fe; Ph; Ph] Ka [] false [false; true; false; false] "--++" false;
    BEntry ddhh [Pf Fd; Pa Fd; Ph; Ph] Ka [] false [false; true; false; false] "++--" false;
    BEntry uuhh [Pf Fu; Pa Fu; Ph; Ph] Ka [] false [false; true; false; false] "++--" false;
    BEntry nnWW [Pf Fne; Pa Fne; PWp; PWm] Ka [n_masse] false [false; false; true; true] "---------" false;
    BEntry eeAA [Pf Fe; Pa Fe; PA; PA] Ka [] false [false; true; true; true] "-++-+++++--++--+" false;
    BEntry ddAA [Pf Fd; Pa Fd; PA; PA] Ka [] false [false; true; true; true] "-++-+++++--++--+" false;
    BEntry uuAA [Pf Fu; Pa Fu; PA; PA] Ka [] false [false; true; true; true] "-++-+++++--++--+" false;
    BEntry AnWe [PA; Pf Fne; PWp; Pf Fe] Ke [] false [false; false; true; true] "++++++++++++" true;
    BEntry enAW [Pa Fe; Pf Fne; PA; PWp] Ka00b [] false [true; false; true; true] "------------" true;
    BEntry AWWh [PA; PWp; PWp; Ph] K0aab [] false [false; false; true; false] "---+++------+++---" true;
    BEntry gWud [PG; PWp; Pf Fu; Pa Fd] Kg [] false [false; false; true; false] "-+-++-+--+-+-+-++-+--+-+" false;
    BEntry dWgu [Pf Fd; PWp; PG; Pf Fu] Kg [] false [false; false; true; true] "++++----++++--++++++----" false;
    BEntry guZu [PG; Pf Fu; PZ; Pf Fu] K0aba [] false [false; false; true; true] "++++++------------++++++" false;
    BEntry AdZd [PA; Pf Fd; PZ; Pf Fd] K0aba [] false [false; false; true; true] "------++++++++++++------" false;
    BEntry AeZe [PA; Pf Fe; PZ; Pf Fe] K0aba [] false [false; false; true; true] "++++++------------++++++" false;
    BEntry gdZd [PG; Pf Fd; PZ; Pf Fd] K0aba [] false [false; false; true; true] "------++++++++++++------" false;
    BEntry AZuu [PA; PZ; Pf Fu; Pa Fu] Kf [] false [false; false; true; false] "+-+--+-++-+-+-+--+-++-+-" false;
    BEntry AuZu [PA; Pf Fu; PZ; Pf Fu] K0aba [] false [false; false; true; true] "++++++------------++++++" false;
    BEntry AhWW [PA; Ph; PWp; PWm] Kf [] false [false; false; true; true] "--+---+----+---+--" true;
    BEntry AZee [PA; PZ; Pf Fe; Pa Fe] Kf [] false [false; false; true; false] "+-+--+-++-+-+-+--+-++-+-" false;
    BEntry hZZh [Ph; PZ; PZ; Ph] Kc [] false [false; false; true; false] "---+++---" true;
    BEntry gZdd [PG; PZ; Pf Fd; Pa Fd] Kf [] false [false; false; true; false] "-+-++-+--+-+-+-++-+--+-+" false;
    BEntry gZuu [PG; PZ; Pf Fu; Pa Fu] Kf [] false [false; false; true; false] "-+-++-+--+-+-+-++-+--+-+" false;
    BEntry AZdd [PA; PZ; Pf Fd; Pa Fd] Kf [] false [false; false; true; false] "-+-++-+--+-+-+-++-+--+-+" false;
    BEntry hWWh [Ph; PWp; PWp; Ph] Kc [] false [false; false; true; false] "---+++---" true;
    BEntry hhZZ [Ph; Ph; PZ; PZ] Ka [] false [false; false; true; true] "---------" true;
    BEntry hhWW [Ph; Ph; PWp; PWm] Ka [] false [false; false; true; true] "---------" true;
    BEntry AWud [PA; PWp; Pf Fu; Pa Fd] Kg [] false [false; false; true; false] "+-+--+-++-+-+-+--+-++-+-" true;
    BEntry udWh [Pf Fu; Pa Fd; PWp; Ph] Kg [] false [false; true; true; false] "++++++------" false;
    BEntry eeZh [Pf Fe; Pa Fe; PZ; Ph] Ke [] false [false; true; true; false] "------++++++" false;
    BEntry ddZh [Pf Fd; Pa Fd; PZ; Ph] Ke [] false [false; true; true; false] "------++++++" false;
    BEntry uuZh [Pf Fu; Pa Fu; PZ; Ph] Ke [] false [false; true; true; false] "------++++++" false;
    BEntry ZnWe [PZ; Pf Fne; PWp; Pf Fe] Kg [] false [false; false; true; true] "------++++++------" false;
    BEntry uhWd [Pf Fu; Ph; PWp; Pf Fd] Kg [] false [false; false; true; true] "------++++++" false;
    BEntry ZZZZ [PZ; PZ; PZ; PZ] Kd [] false [false; false; true; true] "---------+++++++++---------+++++++++---------+++++++++---------+++++++++---------" false;
    BEntry AWAW [PA; PWp; PA; PWp] Kb [] false [false; false; true; true] "---++++++------++++++------++++++---" true;
    BEntry eZeh [Pf Fe; PZ; Pf Fe; Ph] Kabac [] false [false; false; true; false] "++--++--++--" false;
    BEntry AAWW [PA; PA; PWp; PWm] Ka [] false [false; false; true; true] "-+++-+++--------------------+++-+++-" true;
    BEntry dZdh [Pf Fd; PZ; Pf Fd; Ph] Kabac [] false [false; false; true; false] "++--++--++--" false ].
Definition boson_entries2 : list bentry :=
  [ BEntry uZuh [Pf Fu; PZ; Pf Fu; Ph] Kabac [] false [false; false; true; false] "++--++--++--" false;
    BEntry udAW [Pa Fu; Pf Fd; PA; PWm] Kg [] false [true; false; true; true] "++++++------++++++------" true;
    BEntry enZW [Pa Fe; Pf Fne; PZ; PWp] Kg [] false [true; false; true; true] "++++++++++++++++++" false;
    BEntry ZhWW [PZ; Ph; PWp; PWm] Kf [] false [false; false; true; true] "+++++++++---------+++++++++" false;
    BEntry eZZe [Pf Fe; PZ; PZ; Pf Fe] Kc [] false [false; false; true; true] "------++++++------++++++------++++++" false;
    BEntry eWWe [Pf Fe; PWp; PWp; Pf Fe] Kc [] false [false; false; true; true] "------++++++------++++++------++++++" false;
    BEntry dZZd [Pf Fd; PZ; PZ; Pf Fd] Kc [] false [false; false; true; true] "------++++++------++++++------++++++" false ].
Definition boson_entries3 : list bentry :=
  [ BEntry uZZu [Pf Fu; PZ; PZ; Pf Fu] Kc [] false [false; false; true; true] "------++++++------++++++------++++++" false;
    BEntry WdWd [PWp; Pf Fd; PWp; Pf Fd] Kb [] false [true; true; false; false] "-++--+-++--+-++--+-++--+-++--+-++--+" false;
    BEntry eeWW [Pf Fe; Pa Fe; PWp; PWm] Ka [] false [false; true; true; true] "++++++++++++++++++------------------" false;
    BEntry eeZZ [Pf Fe; Pa Fe; PZ; PZ] Ka [] false [false; true; true; true] "++++++++++++++++++------------------" false;
    BEntry AWZW [PA; PWp; PZ; PWp] K0aba [] false [false; false; true; true] "+++++++++---------++++++++++++++++++---------+++++++++" true;
    BEntry ddZZ [Pf Fd; Pa Fd; PZ; PZ] Ka [] false [false; true; true; true] "++++++++++++++++++------------------" false;
    BEntry uuZZ [Pf Fu; Pa Fu; PZ; PZ] Ka [] false [false; true; true; true] "++++++++++++++++++------------------" false ].
Definition boson_entries4 : list bentry :=
  [ BEntry ddWW [Pa Fd; Pf Fd; PWp; PWm] Ka [] false [true; false; true; true] "---------+++++++++---------+++++++++" false;
    BEntry uWWu [Pf Fu; PWp; PWp; Pf Fu] Kc [] false [false; false; true; true] "------++++++------++++++------++++++" false;
    BEntry uuWW [Pf Fu; Pa Fu; PWp; PWm] Ka [] false [false; true; true; true] "++++++++++++++++++------------------" false;
    BEntry AZWW [PA; PZ; PWp; PWm] Kf [] false [false; false; true; true] "+++++++++---------++++++++++++++++++---------+++++++++" true;
    BEntry WdZu [PWp; Pf Fd; PZ; Pf Fu] Kg [] false [false; false; true; true] "++++++------------++++++++++++------" false;
    BEntry ZWWh [PZ; PWp; PWp; Ph] Kabbc [] false [false; false; true; false] "+++---+++---+++---+++---+++" false;
    BEntry udZW [Pa Fu; Pf Fd; PZ; PWm] Kg [] false [true; false; true; true] "---------+++++++++---------+++++++++" false ].
Definition boson_entries5 : list bentry :=
  [ BEntry ZWZW [PZ; PWp; PZ; PWp] Kb [] false [false; false; true; true] "---------+++++++++---------+++++++++---------+++++++++---------+++++++++---------" true;
    BEntry ZZWW [PZ; PZ; PWp; PWm] Ka [] false [false; false; true; true] "---------+++++++++---------+++++++++---------+++++++++---------+++++++++---------" true;
    BEntry WWWW2 [PWp; PWm; PWp; PWm] Kd [] false [false; false; true; true] "+++++++++---------+++++++++---------+++++++++---------+++++++++---------+++++++++" true;
    BEntry WWWW [PWp; PWp; PWp; PWp] Kd [] false [false; false; true; true] "+++++++++---------+++++++++---------+++++++++---------+++++++++---------+++++++++" true ].
Definition boson_entries : list bentry := boson_entries1 ++ boson_entries2 ++ boson_entries3 ++ boson_entries4 ++ boson_entries5.
