rocq/theories/Text_*.v -text
