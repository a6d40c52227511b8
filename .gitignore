*.vo
*.vok
*.vos
*.glob
*.aux
.lia.cache
.nia.cache
*.d
rocq/Makefile
rocq/Makefile.conf
rocq/.Makefile.d
