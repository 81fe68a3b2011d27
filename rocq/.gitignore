*.aux
*.d
*.glob
*.vo
*.vok
*.vos
.*.aux
.Makefile*
.Makefile.d
.coqdeps*
.lia.cache
.nia.cache
Makefile
Makefile*
Makefile.conf
